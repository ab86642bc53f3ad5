(** Which namespaces the root of an archive declares. *)
From Verif Require Import Base Text_Model Text_Spec Text_Proofs3 Api_Model Api_Spec Api_Proofs Api_Proofs3 Writer_Model Writer_Spec Writer_Proofs2 Writer_Proofs8 Archive_Model Archive_Spec Root_Model Root_Spec Root_Proofs.
Local Open Scope N_scope.

(** the namespaces of an archive: each URI once, flags as given on registration *)
Definition ns_flags_ok (n : ns) : Prop := ns_flags n = if bytes_dec (ns_uri n) SRC_URI then 17 else 8.
Definition ns_ok (l : list ns) : Prop := NoDup (map ns_uri l) /\ Forall ns_flags_ok l /\ find_uri l SRC_URI <> None.
Lemma modify_uris : forall l u f, (forall n, ns_uri (f n) = ns_uri n) -> map ns_uri (modify_uri l u f) = map ns_uri l.
Proof.
  induction l as [|m l IH]; intros u f H; [reflexivity|]. cbn [modify_uri]. destruct (beqb (ns_uri m) u); cbn [map]; [rewrite H; reflexivity|].
  rewrite IH by exact H. reflexivity.
Qed.
Lemma register_ns_ok : forall a p u, ns_ok (a_namespaces a) -> ns_ok (a_namespaces (snd (register_namespace a (Some p) (Some u)))).
Proof.
  intros a p u (D & F & S0). unfold register_namespace. cbn [snd a_namespaces with_options with_namespaces].
  destruct (find_uri (a_namespaces a) u) as [m|] eqn:E.
  - split; [rewrite modify_uris by reflexivity; exact D|]. split.
    + clear -F. induction (a_namespaces a) as [|m l IH]; [constructor|]. cbn [modify_uri].
      destruct (beqb (ns_uri m) u); constructor; try exact (Forall_inv_tail F); try exact (Forall_inv F).
      apply IH, (Forall_inv_tail F).
    + rewrite find_modify by reflexivity. destruct (bytes_dec u SRC_URI); [|exact S0].
      destruct (find_uri (a_namespaces a) SRC_URI); [discriminate|contradiction].
  - split; [|split].
    + rewrite map_app. apply NoDup_snoc; [exact D|]. exact (proj1 (find_uri_none _ _) E).
    + apply Forall_app. split; [exact F|]. constructor; [|constructor]. unfold ns_flags_ok. cbn [ns_flags ns_uri].
      destruct (bytes_dec u SRC_URI) as [->|Q]; [contradiction|reflexivity].
    + rewrite find_snoc. destruct (find_uri (a_namespaces a) SRC_URI); [discriminate|contradiction].
Qed.
Lemma step_ns_ok : forall a c, ns_ok (a_namespaces a) -> ns_ok (a_namespaces (snd (step a c))).
Proof.
  intros a c H. destruct c as [k v|o|o|o| | | | |n|[e|] [l|]|[p|] [u|]|[t|] [y|]|n]; cbn [step snd]; try exact H.
  - destruct k; exact H.
  - apply register_ns_ok, H.
  - unfold register_macro. destruct (macro_loop _ _ _ _ _) as [[v|]|]; exact H.
  - destruct ((n =? 0) || (n =? 1)); exact H.
Qed.
Lemma attribute_namespaces : forall ats t, a_namespaces (fst (fold_left root_attribute ats t)) = a_namespaces (fst t).
Proof.
  induction ats as [|(n, v) ats IH]; intros (a, al); [reflexivity|]. cbn [fold_left]. rewrite IH. unfold root_attribute.
  repeat match goal with |- context [if ?b then _ else _] => destruct b; [try reflexivity|] end; reflexivity.
Qed.
Lemma produced_ns_ok : forall t, produced t -> ns_ok (a_namespaces (fst t)).
Proof.
  induction 1 as [|a al c H IH|b nss ats t H IH]; cbn [fst] in *.
  - split; [|split].
    + cbn. constructor; [intros []|constructor].
    + constructor; [|constructor]. unfold ns_flags_ok. cbn [ns_flags ns_uri]. destruct (bytes_dec SRC_URI SRC_URI) as [Q|Q]; [reflexivity|contradiction].
    + vm_compute. discriminate.
  - apply step_ns_ok, IH.
  - unfold start_root. cbn [fst].
    assert (G : forall nss a, ns_ok (a_namespaces a) -> ns_ok (a_namespaces (fold_left root_namespace nss a))).
    { clear. induction nss as [|n nss IH]; intros a H; [exact H|]. cbn [fold_left]. apply IH. apply register_ns_ok, H. }
    apply G. rewrite attribute_namespaces. cbn [fst]. destruct b; exact IH.
Qed.

(** the entry of a URI on the root *)
Definition default_prefix (u : bytes) : option ns := find_uri default_namespaces u.
Lemma root_find : forall l u, ns_ok l ->
  find_uri (merge default_namespaces l) u =
  match find_uri l u, find_uri default_namespaces u with
  | Some n, Some d => Some (Ns (ns_prefix n) u (N.lor (ns_flags d) (ns_flags n)))
  | Some n, None => Some n
  | None, o => o
  end.
Proof.
  intros l u (D & _ & _). rewrite merge_find. destruct (find_uri l u) as [n|] eqn:E.
  - rewrite (same_nodup _ _ _ D E). cbn [fold_left]. destruct (find_uri default_namespaces u) as [d|] eqn:Dd; [|reflexivity].
    unfold st. rewrite (proj2 (find_uri_some _ _ _ E)), Dd, beqb_refl. rewrite (proj2 (find_uri_some _ _ _ Dd)). reflexivity.
  - assert (Q : same u l = []).
    { unfold same. destruct (filter (fun n => beqb (ns_uri n) u) l) as [|n r] eqn:F; [reflexivity|].
      assert (I : In n (filter (fun n => beqb (ns_uri n) u) l)) by (rewrite F; left; reflexivity).
      apply filter_In in I. destruct I as (I & Bq). apply (proj1 (find_uri_none l u)) in E. exfalso. apply E.
      apply in_map_iff. exists n. split; [apply (proj1 (beqb_true _ _) Bq)|exact I]. }
    rewrite Q. destruct (find_uri default_namespaces u); reflexivity.
Qed.
Lemma find_mark_src : forall l u, find_uri (mark SRC (merge default_namespaces l)) u =
  if bytes_dec SRC_URI u then option_map (fun n => Ns (ns_prefix n) (ns_uri n) (N.lor (ns_flags n) NS_USED)) (find_uri (merge default_namespaces l) u)
  else find_uri (merge default_namespaces l) u.
Proof.
  intros l u. destruct (merged_first l) as (fl & rest & E & _). set (p := prefix_at SRC (merge default_namespaces l)) in *. clearbody p. rewrite E.
  unfold SRC. cbn [mark find_uri ns_uri ns_prefix ns_flags]. rewrite beqb_dec. destruct (bytes_dec SRC_URI u); reflexivity.
Qed.
Definition used (n : ns) : ns := Ns (ns_prefix n) (ns_uri n) (N.lor (ns_flags n) NS_USED).
Definition use_if (b : bool) (o : option ns) : option ns := if b then option_map used o else o.
Lemma find_use : forall b w l u, find_uri (use_uri b w l) u = if bytes_dec w u then use_if b (find_uri l u) else find_uri l u.
Proof. intros [] w l u; unfold use_uri, use_if; [apply find_modify; reflexivity|]. destruct (bytes_dec w u); reflexivity. Qed.
Lemma now_find : forall a l u,
  let o := tag_settings a 0 (merge default_namespaces l) in
  find_uri (ns_now o) u =
  let f := find_uri (merge default_namespaces l) u in
  if bytes_dec u SRC_URI then option_map used f
  else if bytes_dec u CPP_URI then use_if (N.testbit (a_options a) 13) f
  else if bytes_dec u POSITION_URI then use_if (N.testbit (a_options a) 2) f
  else if bytes_dec u ERROR_URI then use_if (N.testbit (a_options a) 11) f else f.
Proof.
  intros a l u. cbv zeta. unfold ns_now, mark_options. cbn [so_options so_ns tag_settings]. rewrite !find_use, find_mark_src.
  unfold opt, B_DEBUG, B_POSITION, B_CPP_DECLARED.
  repeat match goal with |- context [bytes_dec ?x u] => destruct (bytes_dec x u) as [?|?] end; subst;
  repeat match goal with |- context [bytes_dec ?x ?y] => destruct (bytes_dec x y) as [?|?] end; try reflexivity; try congruence;
  exfalso; match goal with H : ?x = ?y |- _ => vm_compute in H; discriminate H end.
Qed.
Lemma declared_root : forall a n, N.testbit (a_options a) 14 = true -> declared (a_options a) 0 n =
  (flag n NS_STANDARD && (flag n NS_REQUIRED || (flag n NS_ROOT && flag n NS_USED)) || flag n NS_REGISTERED && negb (flag n NS_STANDARD)).
Proof. intros a n A. unfold declared, opt, B_ARCHIVE. rewrite A. cbn. rewrite orb_false_r. reflexivity. Qed.
Definition root_decls (a : archive) : list ns := filter (declared (a_options a) 0) (ns_now (tag_settings a 0 (root_namespaces a))).
Lemma default_find : forall u, find_uri default_namespaces u =
  if bytes_dec u SRC_URI then Some (Ns [] SRC_URI 17) else if bytes_dec u CPP_URI then Some (Ns (txt "cpp") CPP_URI 16)
  else if bytes_dec u ERROR_URI then Some (Ns (txt "err") ERROR_URI 18) else if bytes_dec u POSITION_URI then Some (Ns (txt "pos") POSITION_URI 18)
  else if bytes_dec u OPENMP_URI then Some (Ns (txt "omp") OPENMP_URI 16) else None.
Proof.
  intros u. unfold default_namespaces. cbn [find_uri ns_uri]. rewrite !beqb_dec.
  repeat match goal with |- context [bytes_dec ?x u] => destruct (bytes_dec x u) as [?|?] end; subst;
  repeat match goal with |- context [bytes_dec ?x ?y] => destruct (bytes_dec x y) as [?|?] end; try reflexivity; congruence.
Qed.
Lemma find_in : forall l n, NoDup (map ns_uri l) -> In n l -> find_uri l (ns_uri n) = Some n.
Proof. intros l n D I. apply In_nth_error in I. destruct I as (i & E). exact (find_nth _ _ _ D E). Qed.
Lemma now_names : forall o, same_names (ns_now o) (so_ns o).
Proof. intros o. unfold ns_now. eapply names_trans; [apply options_names|apply mark_names]. Qed.
Lemma now_nodup : forall a, NoDup (map ns_uri (ns_now (tag_settings a 0 (root_namespaces a)))).
Proof.
  intros a. rewrite (uris_names _ _ (now_names _)). apply merge_nodup, default_nodup.
Qed.

(** the declarations are exactly the prefixes of the specification *)
Lemma root_decls_ok : forall a, ns_ok (a_namespaces a) -> N.testbit (a_options a) 14 = true ->
  NoDup (map ns_uri (root_decls a)) /\ (forall n, In n (root_decls a) -> root_prefix a (ns_uri n) = Some (ns_prefix n)) /\ (forall u p, root_prefix a u = Some p -> exists n, In n (root_decls a) /\ ns_uri n = u /\ ns_prefix n = p).
Proof.
  intros a K A.
  assert (X : forall u, option_map ns_prefix (match find_uri (ns_now (tag_settings a 0 (root_namespaces a))) u with
                | Some n => if declared (a_options a) 0 n then Some n else None | None => None end) = root_prefix a u).
  { intros u. pose proof (now_find a (a_namespaces a) u) as Q. cbv zeta in Q. fold (root_namespaces a) in Q. rewrite Q. clear Q.
    unfold root_namespaces. rewrite (root_find _ u K), default_find. unfold root_prefix, prefix_from_uri.
    assert (FL : forall n, find_uri (a_namespaces a) u = Some n -> ns_flags n = if bytes_dec u SRC_URI then 17 else 8).
    { intros n F. apply find_uri_some in F. destruct F as (I & <-). exact (proj1 (Forall_forall _ _) (proj1 (proj2 K)) n I). }
    assert (SN : u = SRC_URI -> find_uri (a_namespaces a) u <> None) by (intros ->; exact (proj2 (proj2 K))).
    destruct (find_uri (a_namespaces a) u) as [n|]; [specialize (FL n eq_refl)|clear FL].
    - destruct n as [p v f]. cbn [ns_flags] in FL. subst f.
      destruct (bytes_dec u SRC_URI) as [->|N1].
      { destruct (bytes_dec SRC_URI CPP_URI) as [F|_]; [vm_compute in F; discriminate F|]. destruct (bytes_dec SRC_URI OPENMP_URI) as [F|_]; [vm_compute in F; discriminate F|].
        destruct (bytes_dec SRC_URI POSITION_URI) as [F|_]; [vm_compute in F; discriminate F|]. destruct (bytes_dec SRC_URI ERROR_URI) as [F|_]; [vm_compute in F; discriminate F|].
        cbn [option_map used ns_prefix ns_uri ns_flags]. rewrite (declared_root _ _ A). reflexivity. }
      destruct (bytes_dec u CPP_URI) as [->|N2].
      { destruct (N.testbit (a_options a) 13); cbn [use_if option_map used ns_prefix ns_uri ns_flags]; rewrite (declared_root _ _ A); reflexivity. }
      destruct (bytes_dec u OPENMP_URI) as [->|N3].
      { destruct (bytes_dec OPENMP_URI POSITION_URI) as [F|_]; [vm_compute in F; discriminate F|]. destruct (bytes_dec OPENMP_URI ERROR_URI) as [F|_]; [vm_compute in F; discriminate F|].
        cbn [option_map used ns_prefix ns_uri ns_flags]. rewrite (declared_root _ _ A). reflexivity. }
      destruct (bytes_dec u POSITION_URI) as [->|N4].
      { destruct (bytes_dec POSITION_URI ERROR_URI) as [F|_]; [vm_compute in F; discriminate F|].
        destruct (N.testbit (a_options a) 2); cbn [use_if option_map used ns_prefix ns_uri ns_flags]; rewrite (declared_root _ _ A); reflexivity. }
      destruct (bytes_dec u ERROR_URI) as [->|N5].
      { destruct (N.testbit (a_options a) 11); cbn [use_if option_map used ns_prefix ns_uri ns_flags]; rewrite (declared_root _ _ A); reflexivity. }
      cbn [option_map used ns_prefix ns_uri ns_flags]. rewrite (declared_root _ _ A). reflexivity.
    - destruct (bytes_dec u SRC_URI) as [->|N1]; [contradiction (SN eq_refl eq_refl)|].
      destruct (bytes_dec u CPP_URI) as [->|N2].
      { destruct (N.testbit (a_options a) 13); cbn [use_if option_map used ns_prefix ns_uri ns_flags]; rewrite (declared_root _ _ A); reflexivity. }
      destruct (bytes_dec u OPENMP_URI) as [->|N3].
      { destruct (bytes_dec OPENMP_URI POSITION_URI) as [F|_]; [vm_compute in F; discriminate F|]. destruct (bytes_dec OPENMP_URI ERROR_URI) as [F|_]; [vm_compute in F; discriminate F|].
        cbn [option_map used ns_prefix ns_uri ns_flags]. rewrite (declared_root _ _ A). reflexivity. }
      destruct (bytes_dec u POSITION_URI) as [->|N4].
      { destruct (bytes_dec POSITION_URI ERROR_URI) as [F|_]; [vm_compute in F; discriminate F|].
        destruct (N.testbit (a_options a) 2); cbn [use_if option_map used ns_prefix ns_uri ns_flags]; rewrite (declared_root _ _ A); reflexivity. }
      destruct (bytes_dec u ERROR_URI) as [->|N5].
      { destruct (N.testbit (a_options a) 11); cbn [use_if option_map used ns_prefix ns_uri ns_flags]; rewrite (declared_root _ _ A); reflexivity. }
      reflexivity. }
  split; [|split].
  - unfold root_decls. pose proof (now_nodup a) as D. clear -D. induction (ns_now _) as [|n l IH]; [constructor|].
    cbn [map] in D. inversion D as [|x y X Y]; subst. cbn [filter]. destruct (declared (a_options a) 0 n); [|apply IH, Y].
    cbn [map]. constructor; [|apply IH, Y]. intros I. apply X. apply in_map_iff in I. destruct I as (m & E & I). apply in_map_iff. exists m.
    split; [exact E|]. apply filter_In in I. apply I.
  - intros n I. unfold root_decls in I. apply filter_In in I. destruct I as (I & Dc). rewrite <- X, (find_in _ _ (now_nodup a) I), Dc. reflexivity.
  - intros u p R. rewrite <- X in R. destruct (find_uri (ns_now (tag_settings a 0 (root_namespaces a))) u) as [n|] eqn:F; [|discriminate R].
    destruct (declared (a_options a) 0 n) eqn:Dc; [|discriminate R]. injection R as R. exists n. apply find_uri_some in F. destruct F as (I & U).
    split; [apply filter_In; split; assumption|]. split; assumption.
Qed.
