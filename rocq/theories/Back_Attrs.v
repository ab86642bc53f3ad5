(** The attributes of a written unit, read again (C59). *)
From Verif Require Import Base Text_Model Text_Spec Text_Proofs Text_Proofs3 Api_Model Api_Spec Api_Proofs Api_Proofs3 Writer_Model Writer_Spec Archive_Model Archive_Spec Declared_Spec Root_Model Root_Spec Root_Proofs Root_Proofs3 Root_Proofs5 Source_Model Source_Spec Source_Proofs2 Source_Proofs3 Whole_Spec Whole_Tags Whole_Reads Whole_Unit.
Local Open Scope N_scope.

Definition localized (l : list (bytes * bytes)) : list (bytes * bytes) := map (fun p => (local_name (fst p), snd p)) l.
Lemma sax_attributes_app : forall l m, sax_attributes (l ++ m) = sax_attributes l ++ sax_attributes m.
Proof. induction l as [|[n v] l IH]; intros m; [reflexivity|]. cbn [app sax_attributes]. destruct (declares n); rewrite IH; reflexivity. Qed.
Lemma sax_declared : forall l, sax_attributes (map ns_attr l) = [].
Proof.
  induction l as [|n l IH]; [reflexivity|]. cbn [map sax_attributes]. unfold ns_attr at 1.
  pose proof (declares_declaration (ns_prefix n) []) as D. unfold declaration in D. cbn [fst] in D.
  destruct (ns_prefix n); rewrite D; exact IH.
Qed.
Lemma sax_plain : forall l, Forall ok_attr l -> sax_attributes l = localized l.
Proof. induction 1 as [|[n v] l (_ & _ & D) F IH]; [reflexivity|]. cbn [sax_attributes localized map fst snd] in *. rewrite D. f_equal. exact IH. Qed.
Lemma unit_attributes : forall o g, fine_out o -> fine_args g -> sax_attributes (tag_attrs o g) = localized (unit_attrs o g).
Proof.
  intros o g FO FG. destruct (rest_ok o g FO FG) as (RF & _). unfold tag_attrs. rewrite sax_attributes_app, named_all by (eapply Forall_impl; [|exact RF]; intros p ((X & _) & _); exact X).
  rewrite (sax_plain _ RF). destruct (opt (so_options o) B_NAMESPACE_DECL); [rewrite sax_declared|]; reflexivity.
Qed.

Lemma update_app : forall l m u, update_attributes u (l ++ m) = obind (update_attributes u l) (fun v => update_attributes v m).
Proof.
  intros l m u. unfold update_attributes. rewrite fold_left_app. generalize (fold_left (fun u a => obind u (fun u => update_attribute u a)) l (Ok u)) as r. intros [v|]; [reflexivity|].
  cbn [obind]. induction m as [|x m IH]; [reflexivity|]. cbn [fold_left obind]. exact IH.
Qed.
Lemma beqb_false : forall a b : bytes, a <> b -> beqb a b = false.
Proof. intros a b N. unfold beqb. destruct (list_eq_dec _ _ _); [contradiction|reflexivity]. Qed.
Lemma update_pairs_new : forall ps n v, ~ In n (map fst ps) -> update_pairs (flatten ps) n v = Ok (flatten (ps ++ [(n, v)])).
Proof.
  induction ps as [|[m w] ps IH]; intros n v N; [reflexivity|]. cbn [flatten flat_map app fst snd update_pairs]. rewrite beqb_false by (intros ->; apply N; left; reflexivity).
  fold (flatten ps). rewrite IH by (intros I; apply N; right; exact I). reflexivity.
Qed.
Definition with_pairs (u : uattrs) (ps : list (bytes * bytes)) : uattrs :=
  UAttrs (ua_timestamp u) (ua_hash u) (ua_language u) (ua_revision u) (ua_filename u) (ua_url u) (ua_version u) (flatten ps).
Lemma update_others : forall l u ps, NoDup (map fst (ps ++ l)) -> (forall n, In n (map fst l) -> ~ In n reserved) ->
  update_attributes (with_pairs u ps) l = Ok (with_pairs u (ps ++ l)).
Proof.
  induction l as [|[n v] l IH]; intros u ps ND NR; [rewrite app_nil_r; reflexivity|].
  change ((n, v) :: l) with ([(n, v)] ++ l). rewrite update_app.
  assert (N : forall m, In m reserved -> n <> m) by (intros m I ->; exact (NR m (or_introl eq_refl) I)).
  assert (NP : ~ In n (map fst ps)).
  { rewrite map_app in ND. cbn [map fst] in ND. apply NoDup_remove_2 in ND. intros I. apply ND, in_or_app. left. exact I. }
  assert (E : update_attributes (with_pairs u ps) [(n, v)] = Ok (with_pairs u (ps ++ [(n, v)]))).
  { unfold update_attributes. cbn [fold_left obind update_attribute].
    rewrite !beqb_false by (apply N; vm_compute; tauto). cbn [orb ua_attributes with_pairs]. rewrite update_pairs_new by exact NP. reflexivity. }
  rewrite E. cbn [obind]. rewrite IH; [rewrite <- app_assoc; reflexivity|rewrite <- app_assoc; exact ND|]. intros m I. apply NR. right. exact I.
Qed.
Lemma pairs_flatten : forall ps, pairs_of (flatten ps) = ps.
Proof. induction ps as [|[n v] ps IH]; [reflexivity|]. cbn [flatten flat_map app fst snd pairs_of]. f_equal. exact IH. Qed.

Lemma localized_app : forall l m, localized (l ++ m) = localized l ++ localized m. Proof. intros. apply map_app. Qed.
Lemma localized_given : forall n v, ~ In 58 n -> localized (given n v) = given n v.
Proof. intros n [v|] N; [|reflexivity]. cbn. rewrite local_plain by exact N. reflexivity. Qed.
Lemma localized_pairs : forall l, (forall n v, In (n, v) l -> ~ In 58 n) -> localized l = l.
Proof.
  induction l as [|[n v] l IH]; intros N; [reflexivity|]. cbn [localized map fst snd]. rewrite local_plain by (apply (N n v); left; reflexivity). f_equal.
  apply IH. intros m w I. apply (N m w). right. exact I.
Qed.
Lemma u_revision : forall a b c f u v p x, update_attributes (UAttrs a b c None f u v p) (given (txt "revision") x) = Ok (UAttrs a b c x f u v p). Proof. intros. destruct x; reflexivity. Qed.
Lemma u_language : forall a b r f u v p x, update_attributes (UAttrs a b None r f u v p) (given (txt "language") x) = Ok (UAttrs a b x r f u v p). Proof. intros. destruct x; reflexivity. Qed.
Lemma u_url : forall a b c r f v p x, update_attributes (UAttrs a b c r f None v p) (given (txt "url") x) = Ok (UAttrs a b c r f x v p). Proof. intros. destruct x; reflexivity. Qed.
Lemma u_filename : forall a b c r u v p x, update_attributes (UAttrs a b c r None u v p) (given (txt "filename") x) = Ok (UAttrs a b c r x u v p). Proof. intros. destruct x; reflexivity. Qed.
Lemma u_version : forall a b c r f u p x, update_attributes (UAttrs a b c r f u None p) (given (txt "version") x) = Ok (UAttrs a b c r f u x p). Proof. intros. destruct x; reflexivity. Qed.
Lemma u_timestamp : forall b c r f u v p x, update_attributes (UAttrs None b c r f u v p) (given (txt "timestamp") x) = Ok (UAttrs x b c r f u v p). Proof. intros. destruct x; reflexivity. Qed.
Lemma u_hash : forall a c r f u v p x, update_attributes (UAttrs a None c r f u v p) (given (txt "hash") x) = Ok (UAttrs a x c r f u v p). Proof. intros. destruct x; reflexivity. Qed.
(** what is read of a unit's attributes *)
Lemma update_unit : forall o g, fine_out o -> fine_args g ->
  exists ua, update_attributes (UAttrs None None None None None None None []) (sax_attributes (tag_attrs o g)) = Ok ua /\
    ua_language ua = g_language g /\ ua_filename ua = g_filename g /\ ua_version ua = g_version g /\ ua_timestamp ua = g_timestamp g /\ ua_hash ua = g_hash g /\
    ua_revision ua = g_revision g /\ ua_url ua = g_url g /\
    pairs_of (ua_attributes ua) = (if opt (so_options o) B_STORE_ENCODING then [(txt "src-encoding", match g_encoding g with None | Some [] => txt "UTF-8" | Some e => e end)] else []) ++ pairs_of (g_attributes g).
Proof.
  intros o g FO FG. rewrite (unit_attributes o g FO FG).
  assert (TP : local_name (match prefix_at POS (so_ns o) with [] => txt "tabs" | p => p ++ txt ":tabs" end) = txt "tabs").
  { destruct (prefix_at POS (so_ns o)) as [|c p]; [reflexivity|]. change (txt ":tabs") with (58 :: txt "tabs"). apply local_prefixed. vm_compute. intuition discriminate. }
  destruct FG as (_ & _ & _ & _ & _ & _ & _ & _ & ND & AT). unfold unit_attrs.
  set (tabs := if opt (so_options o) B_POSITION then _ else []). set (enc := if opt (so_options o) B_STORE_ENCODING then _ else []). set (opts := if so_depth o =? 0 then _ else []).
  rewrite !localized_app, !localized_given by (vm_compute; intuition discriminate).
  rewrite (localized_pairs (pairs_of _)) by (intros n v I; apply (AT n v I)).
  assert (T : forall u, update_attributes u (localized tabs) = Ok u).
  { intros u. unfold tabs. destruct (opt (so_options o) B_POSITION); [|reflexivity]. cbn [localized map fst snd]. rewrite TP. destruct u; reflexivity. }
  assert (O : forall u, update_attributes u (localized opts) = Ok u).
  { intros u. unfold opts. destruct (so_depth o =? 0); [|reflexivity]. destruct (stored_options (so_options o)); [reflexivity|]. destruct u; reflexivity. }
  assert (EN : localized enc = enc) by (unfold enc; destruct (opt (so_options o) B_STORE_ENCODING); reflexivity). rewrite EN.
  set (u := UAttrs (g_timestamp g) (g_hash g) (g_language g) (g_revision g) (g_filename g) (g_url g) (g_version g) []).
  assert (NE : forall n, In n (map fst enc) -> n = txt "src-encoding") by (unfold enc; destruct (opt (so_options o) B_STORE_ENCODING); intros n I; [destruct I as [<-|[]]; reflexivity|destruct I]).
  exists (with_pairs u (enc ++ pairs_of (g_attributes g))). split; [|repeat (split; [reflexivity|]); apply pairs_flatten].
  rewrite update_app, u_revision. cbn [obind]. rewrite update_app, u_language. cbn [obind]. rewrite update_app, u_url. cbn [obind]. rewrite update_app, u_filename. cbn [obind].
  rewrite update_app, u_version. cbn [obind]. rewrite update_app, T. cbn [obind]. rewrite update_app, u_timestamp. cbn [obind]. rewrite update_app, u_hash. cbn [obind]. fold u.
  change u with (with_pairs u []). rewrite update_app, (update_others enc u []).
  - cbn [obind]. rewrite update_app, O. cbn [obind app]. rewrite update_others; [reflexivity| |].
    + rewrite map_app. unfold enc. destruct (opt (so_options o) B_STORE_ENCODING); [|exact ND]. cbn [map fst app]. constructor; [|exact ND]. intros I. apply pairs_names in I as (v & I).
      apply (AT _ _ I). left. reflexivity.
    + intros n I. apply pairs_names in I as (v & I). intros R. apply (AT _ _ I). right. exact R.
  - cbn [app]. unfold enc. destruct (opt (so_options o) B_STORE_ENCODING); repeat constructor. intros [].
  - intros n I. rewrite (NE n I). vm_compute. intuition discriminate.
Qed.
