(** Proofs for C14, C15, C16. *)
From Verif Require Import Base Text_Model Text_Spec Text_Proofs2 Text_Proofs3 Api_Model Api_Spec Api_Proofs.
Local Open Scope N_scope.

(** ** C14 *)
Definition pairs (l : list ns) : list (bytes * bytes) := map (fun n => (ns_uri n, ns_prefix n)) l.
Lemma find_uri_some : forall l u n, find_uri l u = Some n -> In n l /\ ns_uri n = u.
Proof.
  induction l as [|m l IH]; intros u n; cbn [find_uri]; [discriminate|]. destruct (beqb (ns_uri m) u) eqn:E.
  - intros H. injection H as <-. apply beqb_true in E. split; [left; reflexivity|exact E].
  - intros H. destruct (IH u n H). split; [right|]; assumption.
Qed.
Lemma find_uri_none : forall l u, find_uri l u = None <-> ~ In u (map ns_uri l).
Proof.
  induction l as [|m l IH]; intros u; cbn [find_uri map In]; [tauto|]. destruct (beqb (ns_uri m) u) eqn:E.
  - apply beqb_true in E. split; [discriminate|tauto].
  - apply beqb_false in E. rewrite IH. tauto.
Qed.
Lemma pairs_fst : forall l, map fst (pairs l) = map ns_uri l.
Proof. intros. unfold pairs. rewrite map_map. reflexivity. Qed.
Lemma register_pairs : forall a p u, pairs (a_namespaces (snd (register_namespace a (Some p) (Some u)))) = upd (pairs (a_namespaces a)) u p.
Proof.
  intros a p u. unfold register_namespace. cbn [snd a_namespaces with_options with_namespaces].
  induction (a_namespaces a) as [|m l IH]; [reflexivity|].
  cbn [find_uri modify_uri pairs map upd]. destruct (beqb (ns_uri m) u) eqn:E; [reflexivity|].
  destruct (find_uri l u); cbn [app map]; f_equal; exact IH.
Qed.
Lemma step_ns : forall a c, (forall p u, c <> RegisterNamespace (Some p) (Some u)) -> a_namespaces (snd (step a c)) = a_namespaces a.
Proof.
  intros a c H. destruct c as [k' v|o|o|o| | | | |n|[e|] [l|]|[p|] [u|]|t y|n]; try reflexivity.
  - destruct k'; reflexivity.
  - exfalso. apply (H p u). reflexivity.
  - apply register_macro_other.
  - cbn [step]. destruct ((n =? 0) || (n =? 1)); reflexivity.
Qed.
Lemma ns_run : forall h a, NoDup (uris a) ->
  NoDup (uris (run h a)) /\
  uris (run h a) = uris a ++ first_seen (uris a) (map fst (ns_regs h)) /\
  (forall k, last_value k (pairs (a_namespaces (run h a))) = or_else (last_value k (ns_regs h)) (last_value k (pairs (a_namespaces a)))).
Proof.
  induction h as [|c h IH]; intros a ND.
  - cbn. rewrite app_nil_r. auto.
  - change (ns_regs (c :: h)) with (match c with RegisterNamespace (Some p) (Some u) => [(u, p)] | _ => [] end ++ ns_regs h).
    cbn [run fold_left]. fold (run h (snd (step a c))).
    assert (D : (exists p u, c = RegisterNamespace (Some p) (Some u)) \/ (forall p u, c <> RegisterNamespace (Some p) (Some u))).
    { destruct c as [| | | | | | | | | |[t|] [y|]| |]; try (right; intros; discriminate). left; eauto. }
    destruct D as [(p & u & ->)|D].
    + cbn [step]. set (a1 := snd (register_namespace a (Some p) (Some u))).
      assert (P : pairs (a_namespaces a1) = upd (pairs (a_namespaces a)) u p) by apply register_pairs.
      assert (U : uris a1 = map fst (upd (pairs (a_namespaces a)) u p)) by (rewrite <- P, pairs_fst; reflexivity).
      assert (ND0 : NoDup (map fst (pairs (a_namespaces a)))) by (rewrite pairs_fst; exact ND).
      destruct (IH a1) as (N1 & N2 & N3); [rewrite U; apply upd_nodup, ND0|].
      split; [exact N1|]. split.
      * rewrite N2, U, upd_names, pairs_fst. unfold uris. cbn [app map fst first_seen]. unfold bdec.
        destruct (in_dec (list_eq_dec N.eq_dec) u (map ns_uri (a_namespaces a))) as [J|J].
        -- rewrite app_nil_r. reflexivity.
        -- rewrite <- app_assoc. f_equal. cbn [app]. f_equal. apply first_seen_ext.
           intros x. rewrite in_app_iff. cbn. tauto.
      * intros k. rewrite N3, P, upd_value by assumption. cbn [app last_value].
        destruct (last_value k (ns_regs h)); [reflexivity|]. cbn.
        destruct (list_eq_dec N.eq_dec u k); reflexivity.
    + pose proof (step_ns a c D) as E.
      destruct (IH (snd (step a c))) as (N1 & N2 & N3); [unfold uris; rewrite E; exact ND|].
      replace (match c with RegisterNamespace (Some p) (Some u) => [(u, p)] | _ => [] end) with (@nil (bytes * bytes)).
      * cbn [app]. unfold uris in N2. rewrite E in N2, N3. auto.
      * destruct c as [| | | | | | | | | |[t|] [y|]| |]; try reflexivity. exfalso. eapply D. reflexivity.
Qed.
Lemma uris_ok : forall h, uris (run h archive_create) = SRC_URI :: first_seen [SRC_URI] (map fst (ns_regs h)) /\
  NoDup (uris (run h archive_create)).
Proof.
  intros h. destruct (ns_run h archive_create) as (A & B & _).
  - unfold uris. cbn [archive_create a_namespaces starting_namespaces map]. constructor; [intros []|constructor].
  - split; assumption.
Qed.
Lemma find_last : forall l u, NoDup (map ns_uri l) -> option_map ns_prefix (find_uri l u) = last_value u (pairs l).
Proof.
  induction l as [|m l IH]; intros u ND; [reflexivity|]. inversion ND as [|x y NI ND']; subst.
  cbn [find_uri pairs map last_value]. fold (pairs l). rewrite beqb_dec. unfold bytes_dec.
  rewrite <- IH by assumption.
  destruct (list_eq_dec N.eq_dec (ns_uri m) u) as [<-|NE].
  - rewrite (proj2 (find_uri_none l (ns_uri m))) by assumption. reflexivity.
  - destruct (option_map ns_prefix (find_uri l u)); reflexivity.
Qed.
Lemma prefix_ok : forall h u, prefix_from_uri (run h archive_create) u =
  or_else (last_value u (ns_regs h)) (if bytes_dec u SRC_URI then Some [] else None).
Proof.
  intros h u. unfold prefix_from_uri. destruct (uris_ok h) as (_ & ND). rewrite find_last by exact ND.
  destruct (ns_run h archive_create) as (_ & _ & C).
  - unfold uris. cbn [archive_create a_namespaces starting_namespaces map]. constructor; [intros []|constructor].
  - rewrite C. f_equal. cbn [archive_create a_namespaces starting_namespaces pairs map last_value ns_uri ns_prefix].
    unfold bytes_dec. destruct (list_eq_dec N.eq_dec SRC_URI u) as [X|X], (list_eq_dec N.eq_dec u SRC_URI) as [Y|Y]; try reflexivity;
    exfalso; [apply Y|apply X]; symmetry; assumption.
Qed.
Lemma namespace_uri_ok : forall a i, namespace_uri a i = Ok (nth_error (uris a) i).
Proof.
  intros a i. unfold namespace_uri, uris. rewrite nth_error_map. destruct (Nat.leb_spec (length (a_namespaces a)) i).
  - rewrite (proj2 (nth_error_None _ _)) by assumption. reflexivity.
  - destruct (nth_error (a_namespaces a) i) eqn:E; [reflexivity|]. apply nth_error_None in E. lia.
Qed.
Lemma find_nth : forall l i n, NoDup (map ns_uri l) -> nth_error l i = Some n -> find_uri l (ns_uri n) = Some n.
Proof.
  induction l as [|m l IH]; intros i n ND E; [destruct i; discriminate|]. inversion ND as [|x y NI ND']; subst.
  cbn [find_uri]. destruct i as [|i]; cbn in E.
  - injection E as ->. rewrite beqb_refl. reflexivity.
  - destruct (beqb (ns_uri m) (ns_uri n)) eqn:B; [|eapply IH; eassumption].
    apply beqb_true in B. exfalso. apply NI. rewrite B. apply in_map. eapply nth_error_In, E.
Qed.
(** away from the end, position lookups agree with each other *)
Lemma namespace_prefix_ok : forall h i, let a := run h archive_create in i <> length (uris a) ->
  namespace_prefix a i = Ok match nth_error (uris a) i with Some u => prefix_from_uri a u | None => None end.
Proof.
  intros h i a NE. unfold namespace_prefix, uris, prefix_from_uri in *. rewrite map_length in NE. rewrite nth_error_map.
  destruct (Nat.ltb_spec (length (a_namespaces a)) i).
  - rewrite (proj2 (nth_error_None _ _)) by lia. reflexivity.
  - destruct (nth_error (a_namespaces a) i) as [n|] eqn:E; [|apply nth_error_None in E; lia].
    cbn [option_map]. rewrite (find_nth _ i n); [reflexivity|apply uris_ok|exact E].
Qed.
Lemma namespace_prefix_end : forall h, namespace_prefix (run h archive_create) (length (uris (run h archive_create))) = UB.
Proof.
  intros h. unfold namespace_prefix, uris. rewrite map_length, Nat.ltb_irrefl.
  rewrite (proj2 (nth_error_None _ _)) by lia. reflexivity.
Qed.
Lemma positions_stable : forall h1 h2, exists more, uris (run (h1 ++ h2) archive_create) = uris (run h1 archive_create) ++ more.
Proof.
  intros h1 h2. rewrite run_app. destruct (ns_run h2 (run h1 archive_create)) as (_ & E & _); [apply uris_ok|].
  rewrite E. eexists. reflexivity.
Qed.
Lemma uri_from_prefix_ok : forall pick h p, finder pick -> let a := run h archive_create in
  match uri_from_prefix pick a p with
  | Some u => prefix_from_uri a u = Some p
  | None => forall u, prefix_from_uri a u <> Some p
  end.
Proof.
  intros pick h p F a. unfold uri_from_prefix. specialize (F (filter (fun n => beqb (ns_prefix n) p) (a_namespaces a))).
  destruct (pick (filter (fun n => beqb (ns_prefix n) p) (a_namespaces a))) as [n|]; cbn [option_map].
  - apply filter_In in F. destruct F as (I & B). apply beqb_true in B. unfold prefix_from_uri.
    apply In_nth_error in I. destruct I as (i & I). rewrite (find_nth _ i n); [cbn; congruence|apply uris_ok|exact I].
  - intros u E. unfold prefix_from_uri in E. destruct (find_uri (a_namespaces a) u) as [n|] eqn:Q; [|discriminate].
    cbn in E. injection E as E. apply find_uri_some in Q. destruct Q as (Q & _).
    assert (X : In n (filter (fun n => beqb (ns_prefix n) p) (a_namespaces a))).
    { apply filter_In. split; [exact Q|]. apply beqb_true. exact E. }
    rewrite F in X. destruct X.
Qed.
Lemma feature_options : forall a p,
  N.testbit (get_options (snd (step a (RegisterNamespace (Some p) (Some CPP_URI))))) 3 = true /\
  N.testbit (get_options (snd (step a (RegisterNamespace (Some p) (Some POSITION_URI))))) 2 = true /\
  N.testbit (a_options (snd (step a (RegisterNamespace (Some p) (Some ERROR_URI))))) 11 = true.
Proof.
  intros a p. unfold get_options. cbn [step]. rewrite !N.mod_pow2_bits_low by lia. rewrite !register_ns_bit.
  destruct (bytes_dec CPP_URI CPP_URI); [|congruence].
  destruct (bytes_dec POSITION_URI CPP_URI); [discriminate|]. destruct (bytes_dec POSITION_URI ERROR_URI); [discriminate|].
  destruct (bytes_dec POSITION_URI POSITION_URI); [|congruence].
  destruct (bytes_dec ERROR_URI CPP_URI); [discriminate|]. destruct (bytes_dec ERROR_URI ERROR_URI); [|congruence].
  cbn. rewrite ?orb_true_r. auto.
Qed.

(** ** C15 *)
Definition st (cur : option ns) (n : ns) : option ns :=
  match cur with
  | None => Some n
  | Some c =>
      match find_uri default_namespaces (ns_uri n) with
      | Some d => if beqb (ns_prefix c) (ns_prefix d)
                  then Some (Ns (ns_prefix n) (ns_uri c) (N.lor (ns_flags c) (ns_flags n))) else Some c
      | None => Some (Ns (ns_prefix n) (ns_uri c) (N.lor (ns_flags c) (ns_flags n)))
      end
  end.
Lemma modify_uris : forall l u f, (forall n, ns_uri (f n) = ns_uri n) -> map ns_uri (modify_uri l u f) = map ns_uri l.
Proof.
  induction l as [|m l IH]; intros u f H; [reflexivity|]. cbn [modify_uri]. destruct (beqb (ns_uri m) u); cbn; [rewrite H|rewrite IH by exact H]; reflexivity.
Qed.
Lemma find_modify : forall l u f v, (forall n, ns_uri (f n) = ns_uri n) ->
  find_uri (modify_uri l u f) v = if bytes_dec u v then option_map f (find_uri l v) else find_uri l v.
Proof.
  induction l as [|m l IH]; intros u f v H; [cbn; destruct (bytes_dec u v); reflexivity|].
  cbn [modify_uri find_uri]. rewrite !beqb_dec. destruct (bytes_dec (ns_uri m) u) as [E|E]; cbn [find_uri].
  - rewrite H, !beqb_dec. destruct (bytes_dec (ns_uri m) v) as [F|F], (bytes_dec u v); try congruence; reflexivity.
  - rewrite beqb_dec. destruct (bytes_dec (ns_uri m) v) as [F|F].
    + destruct (bytes_dec u v); [congruence|reflexivity].
    + apply IH. exact H.
Qed.
Lemma find_snoc : forall l n v, find_uri (l ++ [n]) v = match find_uri l v with Some m => Some m | None => if bytes_dec (ns_uri n) v then Some n else None end.
Proof.
  induction l as [|m l IH]; intros n v; cbn [app find_uri]; [rewrite beqb_dec; destruct (bytes_dec (ns_uri n) v); reflexivity|].
  destruct (beqb (ns_uri m) v); [reflexivity|apply IH].
Qed.
Lemma merge1_uris : forall l n, map ns_uri (merge1 l n) =
  map ns_uri l ++ (if in_dec bytes_dec (ns_uri n) (map ns_uri l) then [] else [ns_uri n]).
Proof.
  intros l n. unfold merge1. destruct (find_uri l (ns_uri n)) as [c|] eqn:E.
  - destruct (in_dec bytes_dec (ns_uri n) (map ns_uri l)) as [I|I]; [|apply find_uri_none in I; congruence].
    rewrite app_nil_r. destruct (find_uri default_namespaces (ns_uri n)) as [d|]; [destruct (beqb (ns_prefix c) (ns_prefix d)); [|reflexivity]|];
      apply modify_uris; reflexivity.
  - apply find_uri_none in E. destruct (in_dec bytes_dec (ns_uri n) (map ns_uri l)); [contradiction|]. rewrite map_app. reflexivity.
Qed.
Lemma merge1_find : forall l n u, find_uri (merge1 l n) u = if bytes_dec (ns_uri n) u then st (find_uri l u) n else find_uri l u.
Proof.
  intros l n u. unfold merge1. destruct (find_uri l (ns_uri n)) as [c|] eqn:E.
  - destruct (find_uri default_namespaces (ns_uri n)) as [d|] eqn:D.
    + destruct (beqb (ns_prefix c) (ns_prefix d)) eqn:B.
      * rewrite find_modify by reflexivity. destruct (bytes_dec (ns_uri n) u) as [<-|NE]; [|reflexivity].
        rewrite E. unfold st. rewrite D, B. reflexivity.
      * destruct (bytes_dec (ns_uri n) u) as [<-|NE]; [|reflexivity]. rewrite E. unfold st. rewrite D, B. reflexivity.
    + rewrite find_modify by reflexivity. destruct (bytes_dec (ns_uri n) u) as [<-|NE]; [|reflexivity].
      rewrite E. unfold st. rewrite D. reflexivity.
  - rewrite find_snoc. cbn [ns_uri]. destruct (bytes_dec (ns_uri n) u) as [<-|NE].
    + rewrite E. destruct n; reflexivity.
    + destruct (find_uri l u); reflexivity.
Qed.
Definition same (u : bytes) (o : list ns) : list ns := filter (fun n => beqb (ns_uri n) u) o.
Lemma merge_find : forall o l u, find_uri (merge l o) u = fold_left st (same u o) (find_uri l u).
Proof.
  induction o as [|n o IH]; intros l u; [reflexivity|]. cbn [merge fold_left same filter]. fold (merge (merge1 l n) o). rewrite IH, merge1_find.
  rewrite beqb_dec. destruct (bytes_dec (ns_uri n) u); reflexivity.
Qed.
Lemma merge_uris : forall o l, map ns_uri (merge l o) = map ns_uri l ++ first_seen (map ns_uri l) (map ns_uri o).
Proof.
  induction o as [|n o IH]; intros l; [cbn; symmetry; apply app_nil_r|].
  cbn [merge fold_left map first_seen]. fold (merge (merge1 l n) o). rewrite IH, merge1_uris. unfold bytes_dec.
  destruct (in_dec (list_eq_dec N.eq_dec) (ns_uri n) (map ns_uri l)).
  - rewrite app_nil_r. reflexivity.
  - rewrite <- app_assoc. f_equal. cbn [app]. f_equal. apply first_seen_ext. intros x. rewrite in_app_iff. cbn. tauto.
Qed.
Lemma first_seen_nodup : forall l seen, NoDup (first_seen seen l) /\ (forall x, In x (first_seen seen l) <-> In x l /\ ~ In x seen).
Proof.
  induction l as [|x l IH]; intros seen; [cbn; split; [constructor|tauto]|]. cbn [first_seen].
  destruct (in_dec (list_eq_dec N.eq_dec) x seen) as [I|I].
  - destruct (IH seen) as (A & B). split; [exact A|]. intros y. rewrite B. cbn. split; [tauto|]. intros ([<-|H] & N); tauto.
  - destruct (IH (x :: seen)) as (A & B). split.
    + constructor; [rewrite B; cbn; tauto|exact A].
    + intros y. cbn [In]. rewrite B. cbn [In]. split; [|].
      * intros [<-|(H & N)]; [tauto|]. tauto.
      * intros ([<-|H] & N); [tauto|]. destruct (list_eq_dec N.eq_dec x y) as [<-|NE]; [tauto|]. right. tauto.
Qed.
Lemma NoDup_app_disj : forall (a b : list bytes), NoDup a -> NoDup b -> (forall x, In x a -> ~ In x b) -> NoDup (a ++ b).
Proof.
  induction a as [|x a IH]; intros b A B D; [exact B|]. inversion A; subst. cbn. constructor.
  - rewrite in_app_iff. intros [H|H]; [contradiction|]. apply (D x); [left; reflexivity|exact H].
  - apply IH; [assumption|assumption|]. intros y Y. apply D. right. exact Y.
Qed.
Lemma merge_nodup : forall l o, NoDup (map ns_uri l) -> NoDup (map ns_uri (merge l o)).
Proof.
  intros l o ND. rewrite merge_uris. destruct (first_seen_nodup (map ns_uri o) (map ns_uri l)) as (A & B).
  apply NoDup_app_disj; [exact ND|exact A|]. intros x H. rewrite B. tauto.
Qed.
(** lists with distinct URIs are determined by their URIs and lookups *)
Lemma ns_list_eq : forall l1 l2, NoDup (map ns_uri l1) -> map ns_uri l1 = map ns_uri l2 ->
  (forall u, find_uri l1 u = find_uri l2 u) -> l1 = l2.
Proof.
  induction l1 as [|m l1 IH]; intros [|m2 l2] ND E F; try discriminate; [reflexivity|].
  cbn in E. injection E as E1 E2. inversion ND as [|x y NI ND']; subst.
  assert (m = m2). { specialize (F (ns_uri m)). cbn [find_uri] in F. rewrite <- E1, beqb_refl in F. congruence. }
  subst m2. f_equal. apply IH; [assumption|assumption|].
  intros u. specialize (F u). cbn [find_uri] in F. destruct (beqb (ns_uri m) u) eqn:B; [|exact F].
  apply beqb_true in B. subst u. rewrite (proj2 (find_uri_none l1 _)) by assumption.
  symmetry. apply find_uri_none. rewrite <- E2. assumption.
Qed.

Definition subflags (a b : N) : Prop := N.lor a b = b.
Lemma sub_refl : forall a, subflags a a. Proof. intros. apply N.lor_diag. Qed.
Lemma sub_trans : forall a b c, subflags a b -> subflags b c -> subflags a c.
Proof. unfold subflags. intros a b c H1 H2. rewrite <- H2, N.lor_assoc, H1. reflexivity. Qed.
Lemma sub_l : forall a b, subflags a (N.lor a b). Proof. intros. unfold subflags. rewrite N.lor_assoc, N.lor_diag. reflexivity. Qed.
Lemma sub_r : forall a b, subflags b (N.lor a b).
Proof. intros. unfold subflags. rewrite N.lor_assoc, (N.lor_comm b a), <- N.lor_assoc, N.lor_diag. reflexivity. Qed.

Lemma st_some : forall f c, exists c', fold_left st f (Some c) = Some c' /\ subflags (ns_flags c) (ns_flags c') /\ ns_uri c' = ns_uri c.
Proof.
  induction f as [|n f IH]; intros c; [exists c; repeat split; apply sub_refl|]. cbn [fold_left].
  assert (X : exists c1, st (Some c) n = Some c1 /\ subflags (ns_flags c) (ns_flags c1) /\ ns_uri c1 = ns_uri c).
  { unfold st. destruct (find_uri default_namespaces (ns_uri n)) as [d|]; [destruct (beqb (ns_prefix c) (ns_prefix d))|];
      eexists; (split; [reflexivity|]); cbn [ns_flags ns_uri]; (split; [first [apply sub_l|apply sub_refl]|reflexivity]). }
  destruct X as (c1 & E & S & U). rewrite E. destruct (IH c1) as (c' & E' & S' & U'). exists c'. split; [exact E'|].
  split; [eapply sub_trans; eassumption|congruence].
Qed.
Lemma merge_flags : forall l o u n, find_uri l u = Some n -> exists m, find_uri (merge l o) u = Some m /\ subflags (ns_flags n) (ns_flags m).
Proof. intros l o u n E. rewrite merge_find, E. destruct (st_some (same u o) n) as (c' & A & B & _). eauto. Qed.
Lemma same_uri : forall u o n, In n (same u o) -> ns_uri n = u.
Proof. intros u o n I. apply filter_In in I. apply beqb_true, I. Qed.

(** default URI: stays put once the prefix is not the default one *)
Lemma frozen : forall u d f c, find_uri default_namespaces u = Some d -> (forall n, In n f -> ns_uri n = u) ->
  ns_prefix c <> ns_prefix d -> fold_left st f (Some c) = Some c.
Proof.
  intros u d f c D. induction f as [|n f IH]; intros U N; [reflexivity|]. cbn [fold_left].
  assert (E : st (Some c) n = Some c).
  { unfold st. rewrite (U n) by (left; reflexivity). rewrite D. apply beqb_false in N. rewrite N. reflexivity. }
  rewrite E. apply IH; [|exact N]. intros m I. apply U. right. exact I.
Qed.
Lemma user_prefix_kept : forall l o u d n, find_uri default_namespaces u = Some d -> find_uri l u = Some n ->
  ns_prefix n <> ns_prefix d -> find_uri (merge l o) u = Some n.
Proof.
  intros l o u d n D F N. rewrite merge_find, F. apply (frozen u d); [exact D| |exact N]. intros m. apply same_uri.
Qed.
Lemma user_prefix_taken : forall l o u d n, find_uri default_namespaces u = Some d ->
  In n o -> ns_uri n = u -> ns_prefix n <> ns_prefix d ->
  exists m, find_uri (merge l o) u = Some m /\ ns_prefix m <> ns_prefix d.
Proof.
  intros l o u d n D I U N. rewrite merge_find.
  assert (I2 : In n (same u o)) by (apply filter_In; split; [exact I|apply beqb_true, U]).
  assert (A : forall m, In m (same u o) -> ns_uri m = u) by (intros m; apply same_uri).
  revert I2 A. generalize (same u o) (find_uri l u). intros f. induction f as [|m f IH]; intros cur I2 A; [destruct I2|].
  cbn [fold_left].
  assert (X : (exists c, st cur m = Some c /\ ns_prefix c <> ns_prefix d) \/ (In n f) ).
  { destruct I2 as [->|I2]; [left|right; exact I2]. unfold st. rewrite U, D. destruct cur as [c|].
    - destruct (beqb (ns_prefix c) (ns_prefix d)) eqn:B; [exists (Ns (ns_prefix n) (ns_uri c) (N.lor (ns_flags c) (ns_flags n)))|exists c].
      + split; [reflexivity|exact N].
      + split; [reflexivity|]. apply beqb_false. exact B.
    - exists n. split; [reflexivity|exact N]. }
  destruct X as [(c & E & NE)|I3].
  - rewrite E. exists c. split; [|exact NE]. apply (frozen u d); [exact D| |exact NE]. intros x Ix. apply A. right. exact Ix.
  - apply IH; [exact I3|]. intros x Ix. apply A. right. exact Ix.
Qed.

(** other URIs: the last prefix wins, all flags are or-ed *)
Lemma st_other : forall u f c, find_uri default_namespaces u = None -> (forall n, In n f -> ns_uri n = u) ->
  exists c', fold_left st f (Some c) = Some c' /\ ns_uri c' = ns_uri c /\
    ns_prefix c' = last (map ns_prefix f) (ns_prefix c) /\ subflags (ns_flags c) (ns_flags c') /\
    (forall n, In n f -> subflags (ns_flags n) (ns_flags c')).
Proof.
  intros u f. induction f as [|n f IH]; intros c D U.
  - exists c. repeat split; try reflexivity; [apply sub_refl|intros n []].
  - cbn [fold_left]. set (c1 := Ns (ns_prefix n) (ns_uri c) (N.lor (ns_flags c) (ns_flags n))).
    assert (E : st (Some c) n = Some c1). { unfold st. rewrite (U n) by (left; reflexivity). rewrite D. reflexivity. }
    rewrite E. destruct (IH c1 D) as (c' & A & B & C & S & T); [intros m I; apply U; right; exact I|].
    exists c'. split; [exact A|]. split; [rewrite B; reflexivity|]. split.
    + rewrite C. cbn [map]. destruct (map ns_prefix f) as [|p q] eqn:Q; [reflexivity|].
      change (last (ns_prefix n :: p :: q) (ns_prefix c)) with (last (p :: q) (ns_prefix c)).
      clear. revert p. induction q as [|r q IH]; intros p; [reflexivity|]. cbn [last] in *. apply IH.
    + split; [eapply sub_trans; [apply sub_l|exact S]|]. intros m [->|I]; [|apply T; exact I].
      eapply sub_trans; [apply sub_r|exact S].
Qed.
Lemma st_other_fix : forall u f c, find_uri default_namespaces u = None -> (forall n, In n f -> ns_uri n = u) ->
  (forall n, In n f -> subflags (ns_flags n) (ns_flags c)) -> ns_prefix c = last (map ns_prefix f) (ns_prefix c) ->
  fold_left st f (Some c) = Some c.
Proof.
  intros u f c D U S L.
  assert (X : forall f p, (forall n, In n f -> ns_uri n = u) -> (forall n, In n f -> subflags (ns_flags n) (ns_flags c)) ->
    fold_left st f (Some (Ns p (ns_uri c) (ns_flags c))) = Some (Ns (last (map ns_prefix f) p) (ns_uri c) (ns_flags c))).
  { clear L U S f. induction f as [|n f IH]; intros p U S; [reflexivity|]. cbn [fold_left].
    assert (E : st (Some (Ns p (ns_uri c) (ns_flags c))) n = Some (Ns (ns_prefix n) (ns_uri c) (ns_flags c))).
    { unfold st. rewrite (U n) by (left; reflexivity). rewrite D. cbn [ns_uri ns_flags]. f_equal. f_equal.
      rewrite N.lor_comm. apply S. left. reflexivity. }
    rewrite E, IH; [|intros m I; apply U; right; exact I|intros m I; apply S; right; exact I].
    cbn [map]. destruct (map ns_prefix f) as [|q r]; [reflexivity|].
    change (last (ns_prefix n :: q :: r) p) with (last (q :: r) p).
    f_equal. f_equal. clear. revert q. induction r as [|x r IH]; intros q; [reflexivity|]. cbn [last] in *. apply IH. }
  specialize (X f (ns_prefix c) U S). rewrite <- L in X. destruct c; exact X.
Qed.
(** default URI: a result that still has the default prefix has absorbed everything *)
Lemma st_default : forall u d f c c', find_uri default_namespaces u = Some d -> (forall n, In n f -> ns_uri n = u) ->
  fold_left st f (Some c) = Some c' -> ns_prefix c' = ns_prefix d ->
  ns_prefix c = ns_prefix d /\ (forall n, In n f -> ns_prefix n = ns_prefix d /\ subflags (ns_flags n) (ns_flags c')).
Proof.
  intros u d f. induction f as [|n f IH]; intros c c' D U E P.
  - cbn in E. injection E as ->. split; [exact P|intros n []].
  - destruct (bytes_dec (ns_prefix c) (ns_prefix d)) as [Q|Q].
    + split; [exact Q|]. cbn [fold_left] in E. unfold st at 2 in E. rewrite (U n), D, Q, beqb_refl in E by (left; reflexivity).
      pose proof (IH _ _ D (fun m I => U m (or_intror I)) E P) as (A & B). cbn [ns_prefix] in A.
      destruct (st_some f (Ns (ns_prefix n) (ns_uri c) (N.lor (ns_flags c) (ns_flags n)))) as (c2 & E2 & S2 & _).
      rewrite E in E2. injection E2 as <-. cbn [ns_flags] in S2.
      intros m [<-|I]; [|apply B, I]. split; [exact A|]. eapply sub_trans; [apply sub_r|exact S2].
    + rewrite (frozen u d) in E; [|exact D|exact U|exact Q]. injection E as ->. congruence.
Qed.
Lemma st_default_fix : forall u d f c, find_uri default_namespaces u = Some d -> (forall n, In n f -> ns_uri n = u) ->
  ns_prefix c = ns_prefix d -> (forall n, In n f -> ns_prefix n = ns_prefix d /\ subflags (ns_flags n) (ns_flags c)) ->
  fold_left st f (Some c) = Some c.
Proof.
  intros u d f c D U P H. induction f as [|n f IH]; [reflexivity|]. cbn [fold_left].
  assert (E : st (Some c) n = Some c).
  { unfold st. rewrite (U n) by (left; reflexivity). rewrite D, P, beqb_refl. destruct (H n) as (A & B); [left; reflexivity|].
    rewrite N.lor_comm, B, A, <- P. destruct c; reflexivity. }
  rewrite E. apply IH; [intros m I; apply U; right; exact I|intros m I; apply H; right; exact I].
Qed.
Lemma last_cons : forall {A} (l : list A) x d, last (x :: l) d = last l x.
Proof. induction l as [|y l IH]; intros x d; [reflexivity|]. change (last (x :: y :: l) d) with (last (y :: l) d). rewrite !IH. reflexivity. Qed.
Lemma st_idem : forall u f cur, (forall n, In n f -> ns_uri n = u) -> fold_left st f (fold_left st f cur) = fold_left st f cur.
Proof.
  intros u f cur U. destruct f as [|n f]; [reflexivity|].
  assert (X : exists c0 g, fold_left st (n :: f) cur = fold_left st g (Some c0) /\ (forall m, In m g -> In m (n :: f)) /\
     last (map ns_prefix (n :: f)) [] = last (map ns_prefix g) (ns_prefix c0) /\
     (forall m, In m (n :: f) -> In m g \/ m = c0)).
  { destruct cur as [c|].
    - exists c, (n :: f). repeat split; auto. cbn [map]. rewrite !last_cons. reflexivity.
    - exists n, f. cbn [fold_left st]. repeat split; [intros m I; right; exact I|cbn [map]; apply last_cons|].
      intros m [<-|I]; auto. }
  destruct X as (c0 & g & E & G & L & M). rewrite E.
  assert (UG : forall m, In m g -> ns_uri m = u) by (intros m I; apply U, G, I).
  destruct (find_uri default_namespaces u) as [d|] eqn:D.
  - destruct (st_some g c0) as (c' & E' & S' & _). rewrite E'.
    destruct (bytes_dec (ns_prefix c') (ns_prefix d)) as [Q|Q].
    + destruct (st_default u d g c0 c' D UG E' Q) as (P0 & H). apply (st_default_fix u d); [exact D|exact U|exact Q|].
      intros m I. destruct (M m I) as [J|J]; [apply H, J|]. subst m. split; assumption.
    + apply (frozen u d); assumption.
  - destruct (st_other u g c0 D UG) as (c' & E' & _ & P & S & T). rewrite E'.
    apply (st_other_fix u); [exact D|exact U| |].
    + intros m I. destruct (M m I) as [J|J]; [apply T, J|subst m; exact S].
    + rewrite P, <- L. cbn [map]. rewrite !last_cons. reflexivity.
Qed.
Lemma merge_idem : forall l o, NoDup (map ns_uri l) -> merge (merge l o) o = merge l o.
Proof.
  intros l o ND. symmetry. apply ns_list_eq.
  - apply merge_nodup, ND.
  - rewrite (merge_uris o (merge l o)). destruct (first_seen_nodup (map ns_uri o) (map ns_uri (merge l o))) as (_ & B).
    destruct (first_seen (map ns_uri (merge l o)) (map ns_uri o)) as [|x r]; [symmetry; apply app_nil_r|exfalso].
    destruct (proj1 (B x) (or_introl eq_refl)) as (I & N). apply N. rewrite merge_uris, in_app_iff.
    destruct (in_dec bytes_dec x (map ns_uri l)); [left; assumption|right]. apply first_seen_nodup. split; assumption.
  - intros u. rewrite !merge_find. symmetry. apply (st_idem u). intros n. apply same_uri.
Qed.
Lemma other_prefix : forall l o u, find_uri default_namespaces u = None -> In u (map ns_uri o) ->
  exists m, find_uri (merge l o) u = Some m /\ ns_prefix m = last (map ns_prefix (filter (fun n => beqb (ns_uri n) u) o)) [] /\
    (forall n, In n o -> ns_uri n = u -> subflags (ns_flags n) (ns_flags m)).
Proof.
  intros l o u D I. rewrite merge_find. apply in_map_iff in I. destruct I as (n0 & U0 & I0).
  assert (I2 : In n0 (same u o)) by (apply filter_In; split; [exact I0|apply beqb_true, U0]).
  assert (A : forall m, In m (same u o) -> ns_uri m = u) by (intros m; apply same_uri).
  assert (B : forall n, In n o -> ns_uri n = u -> In n (same u o)) by (intros n X Y; apply filter_In; split; [exact X|apply beqb_true, Y]).
  fold (same u o). revert I2 A B. generalize (same u o). intros f I2 A B. destruct f as [|n f]; [destruct I2|].
  destruct (find_uri l u) as [c|].
  - destruct (st_other u (n :: f) c D A) as (c' & E & _ & P & _ & T). exists c'. split; [exact E|]. split.
    + rewrite P. cbn [map]. rewrite !last_cons. reflexivity.
    + intros m X Y. apply T, B; assumption.
  - cbn [fold_left st]. destruct (st_other u f n D (fun m X => A m (or_intror X))) as (c' & E & _ & P & S & T). exists c'.
    split; [exact E|]. split; [rewrite P; cbn [map]; symmetry; apply last_cons|].
    intros m X Y. destruct (B m X Y) as [<-|J]; [exact S|apply T, J].
Qed.
(** flags offered for a default URI whose prefix the user has changed are not or-ed *)
Lemma flags_dropped : exists l o u n m, NoDup (map ns_uri l) /\ find_uri o u = Some n /\ find_uri (merge l o) u = Some m /\
  ~ subflags (ns_flags n) (ns_flags m).
Proof.
  exists [Ns (txt "p") CPP_URI NS_REGISTERED], [Ns (txt "cpp") CPP_URI NS_USED], CPP_URI.
  do 2 eexists. split; [cbn; constructor; [intros []|constructor]|]. split; [reflexivity|]. split; [vm_compute; reflexivity|].
  vm_compute. discriminate.
Qed.

(** ** C16 *)
Lemma has_prefix_iff : forall p u, has_prefix u p = true <-> exists s, u = p ++ s.
Proof.
  intros p u. unfold has_prefix. rewrite beqb_true. split.
  - intros H. exists (skipn (length p) u). rewrite <- H at 1. symmetry. apply firstn_skipn.
  - intros (s & ->). rewrite firstn_app, Nat.sub_diag, firstn_all. cbn. apply app_nil_r.
Qed.
Lemma skipn_pre : forall (p s : bytes), skipn (length p) (p ++ s) = s.
Proof. intros. rewrite skipn_app, skipn_all, Nat.sub_diag. reflexivity. Qed.
Lemma new_old : forall s r, URI_NEW ++ s <> URI_OLD ++ r.
Proof. intros s r H. vm_compute in H. discriminate. Qed.
Lemma uri_suffix_ok : forall u s, uri_suffix u = s <-> suffix_of u s.
Proof.
  intros u s. unfold uri_suffix, suffix_of. fold URI_NEW URI_OLD.
  change (txt "http://www.srcML.org/") with URI_NEW. change (txt "http://www.sdml.info/") with URI_OLD.
  destruct (has_prefix u URI_NEW) eqn:A.
  - apply has_prefix_iff in A. destruct A as (t & ->). rewrite skipn_pre. split.
    + intros ->. left. reflexivity.
    + intros [H|[H|(_ & H & _)]]; [apply app_inv_head in H; exact H|exfalso; exact (new_old _ _ H)|exfalso; exact (H t eq_refl)].
  - destruct (has_prefix u URI_OLD) eqn:B.
    + apply has_prefix_iff in B. destruct B as (t & ->). rewrite skipn_pre. split.
      * intros ->. right. left. reflexivity.
      * intros [H|[H|(_ & _ & H)]]; [exfalso; exact (new_old _ _ (eq_sym H))|apply app_inv_head in H; exact H|exfalso; exact (H t eq_refl)].
    + split.
      * intros <-. right. right. split; [reflexivity|].
        split; intros r E; [rewrite (proj2 (has_prefix_iff URI_NEW u)) in A|rewrite (proj2 (has_prefix_iff URI_OLD u)) in B]; try discriminate; exists r; exact E.
      * intros [H|[H|(H & _)]]; [|rewrite (proj2 (has_prefix_iff URI_OLD u)) in B; [discriminate|exists s; exact H]|exact H].
        rewrite (proj2 (has_prefix_iff URI_NEW u)) in A; [discriminate|exists s; exact H].
Qed.
Lemma same_iff : forall u v, is_srcml_namespace u v = true <-> exists s, suffix_of u s /\ suffix_of v s.
Proof.
  intros u v. unfold is_srcml_namespace. destruct (beqb u v) eqn:E.
  - apply beqb_true in E. subst v. split; [|reflexivity]. intros _. exists (uri_suffix u). split; apply uri_suffix_ok; reflexivity.
  - rewrite beqb_true. split.
    + intros H. exists (uri_suffix u). split; apply uri_suffix_ok; congruence.
    + intros (s & A & B). apply uri_suffix_ok in A, B. congruence.
Qed.
Lemma same_by_suffix : forall u v, is_srcml_namespace u v = true <-> uri_suffix u = uri_suffix v.
Proof.
  intros u v. rewrite same_iff. split.
  - intros (s & A & B). apply uri_suffix_ok in A, B. congruence.
  - intros H. exists (uri_suffix u). split; apply uri_suffix_ok; congruence.
Qed.
Lemma same_equivalence : (forall u, is_srcml_namespace u u = true) /\
  (forall u v, is_srcml_namespace u v = true -> is_srcml_namespace v u = true) /\
  (forall u v w, is_srcml_namespace u v = true -> is_srcml_namespace v w = true -> is_srcml_namespace u w = true).
Proof.
  repeat split; intros *; rewrite ?same_by_suffix; congruence.
Qed.
Lemma normalize_cases : forall u, (exists s, u = URI_OLD ++ s /\ uri_normalize u = URI_NEW ++ s) \/
  ((forall s, u <> URI_OLD ++ s) /\ uri_normalize u = u).
Proof.
  intros u. unfold uri_normalize. destruct (has_prefix u URI_OLD) eqn:B.
  - apply has_prefix_iff in B. destruct B as (t & ->). left. exists t. rewrite skipn_pre. split; reflexivity.
  - right. split; [|reflexivity]. intros s E. rewrite (proj2 (has_prefix_iff URI_OLD u)) in B; [discriminate|]. exists s. exact E.
Qed.
Lemma normalize_ok : forall u, uri_normalize (uri_normalize u) = uri_normalize u /\ is_srcml_namespace u (uri_normalize u) = true.
Proof.
  intros u. destruct (normalize_cases u) as [(s & -> & E)|(N & E)]; rewrite E.
  - split.
    + destruct (normalize_cases (URI_NEW ++ s)) as [(r & X & _)|(_ & X)]; [exfalso; exact (new_old _ _ X)|exact X].
    + apply same_iff. exists s. split; [right; left|left]; reflexivity.
  - split; [exact E|]. apply (proj1 same_equivalence).
Qed.
(** of two URIs with a known prefix, the comparison is equality after normalisation *)
Lemma normalize_canonical : forall p q s t, (p = URI_NEW \/ p = URI_OLD) -> (q = URI_NEW \/ q = URI_OLD) ->
  (is_srcml_namespace (p ++ s) (q ++ t) = true <-> uri_normalize (p ++ s) = uri_normalize (q ++ t)).
Proof.
  intros p q s t P Q.
  assert (N : forall r x, r = URI_NEW \/ r = URI_OLD -> uri_normalize (r ++ x) = URI_NEW ++ x).
  { intros r x R. destruct (normalize_cases (r ++ x)) as [(y & E & F)|(E & F)]; rewrite F.
    - destruct R as [-> | ->]; [exfalso; exact (new_old _ _ E)|]. apply app_inv_head in E. subst. reflexivity.
    - destruct R as [-> | ->]; [reflexivity|exfalso; exact (E x eq_refl)]. }
  assert (S : forall r x, r = URI_NEW \/ r = URI_OLD -> uri_suffix (r ++ x) = x).
  { intros r x R. apply uri_suffix_ok. destruct R as [-> | ->]; [left|right; left]; reflexivity. }
  rewrite same_by_suffix, !N, !S by assumption. split; [congruence|]. intros H. apply app_inv_head in H. exact H.
Qed.
