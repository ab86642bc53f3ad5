(** The root tag as a SAX parser gives it, and its effect on the archive that is read into. *)
From Verif Require Import Base Text_Model Text_Spec Text_Proofs3 Api_Model Api_Spec Api_Proofs Api_Proofs3 Writer_Model Writer_Spec Writer_Proofs2 Writer_Proofs8 Archive_Model Archive_Spec Pretty_Spec Pretty_Proofs2 Root_Model Root_Spec Root_Proofs Root_Proofs2.
Local Open Scope N_scope.

(** ** names *)
Lemma declares_prefix : forall p, p <> [] -> declares (txt "xmlns:" ++ p) = Some (Some p).
Proof.
  intros p P. unfold declares. destruct (bytes_dec (txt "xmlns:" ++ p) (txt "xmlns")) as [F|_]; [destruct p; [contradiction|]; vm_compute in F; discriminate F|].
  change (firstn 6 (txt "xmlns:" ++ p)) with (txt "xmlns:"). destruct (bytes_dec (txt "xmlns:") (txt "xmlns:")) as [_|F]; [reflexivity|contradiction].
Qed.
Lemma declares_ns : forall n, declares (fst (ns_attr n)) = Some (match ns_prefix n with [] => None | p => Some p end).
Proof.
  intros n. unfold ns_attr. cbn [fst]. destruct (ns_prefix n) as [|c p]; [reflexivity|]. apply declares_prefix. discriminate.
Qed.
Lemma not_declares : forall n, ~ In 58 n -> n <> txt "xmlns" -> declares n = None.
Proof.
  intros n C X. unfold declares. destruct (bytes_dec n (txt "xmlns")) as [F|_]; [contradiction|].
  destruct (bytes_dec (firstn 6 n) (txt "xmlns:")) as [F|_]; [|reflexivity]. exfalso. apply C. rewrite <- (firstn_skipn 6 n), F. apply in_or_app. left. vm_compute. tauto.
Qed.
Lemma not_declares_prefixed : forall p r, ~ In 58 p -> p <> txt "xmlns" -> ~ In 58 r -> declares (p ++ 58 :: r) = None.
Proof.
  intros p r C X R. unfold declares. destruct (bytes_dec (p ++ 58 :: r) (txt "xmlns")) as [F|_].
  - exfalso. assert (I : In 58 (txt "xmlns")) by (rewrite <- F; apply in_or_app; right; left; reflexivity). vm_compute in I. intuition discriminate.
  - destruct (bytes_dec (firstn 6 (p ++ 58 :: r)) (txt "xmlns:")) as [F|_]; [|reflexivity]. exfalso.
    pose proof (firstn_skipn 6 (p ++ 58 :: r)) as Q. rewrite F in Q. set (s := skipn 6 (p ++ 58 :: r)) in Q. clearbody s.
    change (txt "xmlns:") with (txt "xmlns" ++ [58]) in Q. rewrite <- app_assoc in Q. cbn [app] in Q. symmetry in Q.
    destruct (name_ends 58 p (txt "xmlns") r s C) as (E & _); [vm_compute; intuition discriminate|exact Q|]. contradiction.
Qed.
Lemma local_plain : forall n, ~ In 58 n -> local_name n = n.
Proof.
  destruct n as [|c r]; intros C; [reflexivity|]. cbn [local_name]. destruct (in_dec N.eq_dec 58 r) as [I|_]; [exfalso; apply C; right; exact I|].
  destruct (c =? 58) eqn:E; [apply N.eqb_eq in E; subst c; exfalso; apply C; left; reflexivity|reflexivity].
Qed.
Lemma local_prefixed : forall p r, ~ In 58 r -> local_name (p ++ 58 :: r) = r.
Proof.
  induction p as [|c p IH]; intros r C.
  - cbn [app local_name]. destruct (in_dec N.eq_dec 58 r) as [I|_]; [contradiction|]. reflexivity.
  - cbn [app local_name]. destruct (in_dec N.eq_dec 58 (p ++ 58 :: r)) as [I|F]; [apply IH, C|]. exfalso. apply F. apply in_or_app. right. left. reflexivity.
Qed.

(** ** the attributes of the root *)
Definition tabs_name (a : archive) : bytes :=
  match prefix_at POS (root_namespaces a) with [] => txt "tabs" | p => p ++ txt ":tabs" end.
Definition root_rest (a : archive) (tabs : bytes) (al : list bytes) : list (bytes * bytes) :=
  given (txt "revision") (a_revision a) ++ given (txt "url") (a_url a) ++ given (txt "version") (a_version a) ++
  (if N.testbit (a_options a) 2 then [(tabs, dec_of (a_tabstop a))] else []) ++
  match stored_options (a_options a) with [] => [] | s => [(txt "options", s)] end ++ pairs_of al.
Lemma named_all : forall l : list (bytes * bytes), Forall (fun p : bytes * bytes => fst p <> []) l -> named l = l.
Proof.
  induction l as [|p l IH]; intros F; [reflexivity|]. unfold named. cbn [filter]. pose proof (Forall_inv F) as A.
  destruct (beqb (fst p) []) eqn:E; [apply beqb_true in E; contradiction|]. cbn [negb]. f_equal. exact (IH (Forall_inv_tail F)).
Qed.
Lemma pos_prefix : forall a, ns_ok (a_namespaces a) -> prefix_at POS (root_namespaces a) = default_to (prefix_from_uri a POSITION_URI) (txt "pos").
Proof.
  intros a K. destruct (merged_nth (a_namespaces a) POS (Ns (txt "pos") POSITION_URI 18) eq_refl) as (n & E & U & F).
  unfold prefix_at. unfold root_namespaces in *. rewrite E. cbn [ns_uri] in F. rewrite (root_find _ _ K) in F.
  unfold prefix_from_uri. destruct (find_uri (a_namespaces a) POSITION_URI) as [m|]; cbn [option_map default_to].
  - destruct (find_uri default_namespaces POSITION_URI); injection F as <-; reflexivity.
  - rewrite default_find in F. vm_compute in F. injection F as <-. reflexivity.
Qed.
Lemma root_attrs : forall a al, N.testbit (a_options a) 8 = true -> N.testbit (a_options a) 6 = false -> Forall (fun p => fst p <> []) (pairs_of al) ->
  root_tag a al = [60] ++ element_name (root_namespaces a) ++ attrs (map ns_attr (root_decls a) ++ root_rest a (tabs_name a) al).
Proof.
  intros a al D S0 NE. unfold root_tag, start_tag, tag_attrs, element_name, unit_attrs.
  cbn [so_options so_ns so_depth so_tabs tag_settings g_language g_revision g_url g_filename g_version g_timestamp g_hash g_encoding g_attributes given app].
  unfold opt, B_NAMESPACE_DECL, B_POSITION, B_STORE_ENCODING. rewrite D, S0. change (0 =? 0) with true. cbv iota. cbn [app].
  fold (tag_settings a 0 (root_namespaces a)). fold (root_decls a). fold (tabs_name a).
  change (given (txt "revision") (a_revision a) ++ given (txt "url") (a_url a) ++ given (txt "version") (a_version a) ++
    (if N.testbit (a_options a) 2 then [(tabs_name a, dec_of (a_tabstop a))] else []) ++
    match stored_options (a_options a) with [] => [] | s => [(txt "options", s)] end ++ pairs_of al) with (root_rest a (tabs_name a) al).
  rewrite named_all; [reflexivity|]. unfold root_rest.
  assert (G : forall n v, n <> [] -> Forall (fun p : bytes * bytes => fst p <> []) (given n v)).
  { intros n [v|] Hn; [constructor; [exact Hn|constructor]|constructor]. }
  apply Forall_app; split; [apply G; discriminate|]. apply Forall_app; split; [apply G; discriminate|]. apply Forall_app; split; [apply G; discriminate|].
  apply Forall_app; split.
  { destruct (N.testbit (a_options a) 2); [|constructor]. constructor; [|constructor]. cbn [fst]. unfold tabs_name. destruct (prefix_at POS (root_namespaces a)); discriminate. }
  apply Forall_app; split; [|exact NE]. destruct (stored_options (a_options a)); [constructor|constructor; [discriminate|constructor]].
Qed.

(** ** the SAX view *)
Lemma sax_ns_app : forall l m, sax_namespaces (l ++ m) = sax_namespaces l ++ sax_namespaces m.
Proof. induction l as [|(n, v) l IH]; intros m; [reflexivity|]. cbn [app sax_namespaces]. rewrite IH. destruct (declares n); reflexivity. Qed.
Lemma sax_at_app : forall l m, sax_attributes (l ++ m) = sax_attributes l ++ sax_attributes m.
Proof. induction l as [|(n, v) l IH]; intros m; [reflexivity|]. cbn [app sax_attributes]. rewrite IH. destruct (declares n); reflexivity. Qed.
Definition sax_ns (n : ns) : option bytes * bytes := (match ns_prefix n with [] => None | p => Some p end, ns_uri n).
Lemma sax_decls : forall l, sax_namespaces (map ns_attr l) = map sax_ns l /\ sax_attributes (map ns_attr l) = [].
Proof.
  induction l as [|n l (A & B)]; [split; reflexivity|]. cbn [map]. destruct (ns_attr n) as [q v] eqn:E.
  pose proof (declares_ns n) as D. rewrite E in D. cbn [fst] in D. cbn [sax_namespaces sax_attributes]. rewrite D, A, B. split; [|reflexivity].
  unfold sax_ns at 1. unfold ns_attr in E. injection E as _ <-. reflexivity.
Qed.
Lemma sax_plain : forall l, Forall (fun p : bytes * bytes => ~ In 58 (fst p) /\ fst p <> txt "xmlns") l -> sax_namespaces l = [] /\ sax_attributes l = l.
Proof.
  induction l as [|(n, v) l IH]; intros F; [split; reflexivity|]. destruct (Forall_inv F) as (A & B). cbn [fst] in A, B. destruct (IH (Forall_inv_tail F)) as (I1 & I2).
  cbn [sax_namespaces sax_attributes]. rewrite (not_declares n A B), I1, I2, (local_plain n A). split; reflexivity.
Qed.
