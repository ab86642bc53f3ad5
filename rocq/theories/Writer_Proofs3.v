(** Proofs about complete units: C21 and C22. *)
From Verif Require Import Base Text_Model Text_Spec Text_Proofs Text_Proofs2 Text_Proofs3 Api_Model Api_Proofs Api_Proofs3 Writer_Model Writer_Spec Writer_Proofs Writer_Proofs2.
Local Open Scope N_scope.

Lemma unit_out_ns : forall a u, so_ns (unit_out a u) = merge default_namespaces (unit_namespaces a u).
Proof. reflexivity. Qed.

(** the first attribute declares the srcML namespace *)
Definition src_decl (a : archive) (u : uobj) : bytes * bytes :=
  (match prefix_at SRC (so_ns (unit_out a u)) with [] => txt "xmlns" | p => txt "xmlns:" ++ p end, SRC_URI).
Lemma sub_land : forall fl k, subflags k fl -> N.land fl k = k.
Proof.
  intros fl k H. unfold subflags in H. rewrite <- H. apply N.bits_inj. intros i. rewrite N.land_spec, N.lor_spec. destruct (N.testbit k i), (N.testbit fl i); reflexivity.
Qed.
Lemma src_flags : forall fl, subflags (N.lor NS_STANDARD NS_REQUIRED) fl ->
  negb (N.land fl NS_STANDARD =? 0) = true /\ negb (N.land fl NS_REQUIRED =? 0) = true.
Proof.
  intros fl H.
  assert (S1 : subflags NS_STANDARD fl) by (eapply sub_trans; [apply sub_l|exact H]).
  assert (S2 : subflags NS_REQUIRED fl) by (eapply sub_trans; [apply sub_r|exact H]).
  rewrite (sub_land _ _ S1), (sub_land _ _ S2). split; reflexivity.
Qed.
Lemma use_first : forall b u n l, beqb (ns_uri n) u = false -> exists r, use_uri b u (n :: l) = n :: r.
Proof. intros b u n l H. unfold use_uri. destruct b; [|eexists; reflexivity]. cbn [modify_uri]. rewrite H. eexists; reflexivity. Qed.
Lemma tag_first : forall a u g, opt (clear_archive (a_options a)) B_NAMESPACE_DECL = true ->
  exists rest, tag_attrs (unit_out a u) g = src_decl a u :: rest.
Proof.
  intros a u g D. unfold tag_attrs. change (so_options (unit_out a u)) with (clear_archive (a_options a)). rewrite D.
  unfold ns_now. change (so_options (unit_out a u)) with (clear_archive (a_options a)).
  destruct (merged_first (unit_namespaces a u)) as (fl & rest & E & F).
  rewrite unit_out_ns, E. change (mark SRC (?n :: ?l)) with (Ns (ns_prefix n) (ns_uri n) (N.lor (ns_flags n) NS_USED) :: l).
  cbn [mark SRC ns_prefix ns_uri ns_flags]. set (n := Ns _ SRC_URI _).
  assert (X : exists r, mark_options (clear_archive (a_options a)) (n :: rest) = n :: r).
  { unfold mark_options. destruct (use_first (opt (clear_archive (a_options a)) B_CPP_DECLARED) CPP_URI n rest eq_refl) as (r1 & ->).
    destruct (use_first (opt (clear_archive (a_options a)) B_POSITION) POSITION_URI n r1 eq_refl) as (r2 & ->).
    apply (use_first (opt (clear_archive (a_options a)) B_DEBUG) ERROR_URI n r2 eq_refl). }
  destruct X as (r & ->). cbn [filter].
  assert (DD : declared (clear_archive (a_options a)) (so_depth (unit_out a u)) n = true).
  { unfold declared. change (so_depth (unit_out a u)) with 0. cbn [N.eqb orb]. unfold flag, n. cbn [ns_flags].
    destruct (src_flags _ (sub_trans _ _ _ F (sub_l fl NS_USED))) as [S1 S2]. rewrite S1, S2. reflexivity. }
  rewrite DD. cbn [map app]. eexists. reflexivity.
Qed.

Lemma prefix_occurrence : forall p z r, p <> [] -> (forall x y, p = x ++ txt "xmlns" ++ y -> False) -> p ++ 58 :: z <> txt "xmlns" ++ r.
Proof.
  intros p z r NE H E. destruct p as [|a p]; [contradiction|]. cbn in E. injection E as Ea E.
  destruct p as [|b p]; [discriminate E|]. cbn in E. injection E as Eb E.
  destruct p as [|c p]; [discriminate E|]. cbn in E. injection E as Ec E.
  destruct p as [|d p]; [discriminate E|]. cbn in E. injection E as Ed E.
  destruct p as [|e p]; [discriminate E|]. cbn in E. injection E as Ee E.
  apply (H [] p). subst. reflexivity.
Qed.
(** the position of the declaration *)
Lemma find_decl : forall p y, prefix_ok p ->
  strstr ([60] ++ prefixed p (txt "unit") ++ [32] ++ txt "xmlns" ++ y) (txt "xmlns") = Some (length ([60] ++ prefixed p (txt "unit") ++ [32])).
Proof.
  intros p y [Q X].
  replace ([60] ++ prefixed p (txt "unit") ++ [32] ++ txt "xmlns" ++ y) with (([60] ++ prefixed p (txt "unit") ++ [32]) ++ txt "xmlns" ++ y)
    by (rewrite <- !app_assoc; reflexivity).
  rewrite strstr_skip; [rewrite strstr_at; cbn [option_map]; f_equal; lia|discriminate|].
  intros x1 x2 E NE r.
  assert (G : forall x1 x2, txt ":unit " = x1 ++ x2 -> x2 <> [] -> x2 ++ txt "xmlns" ++ y <> txt "xmlns" ++ r).
  { intros z1 z2 Z N F. vm_compute in Z.
    do 6 (destruct z1 as [|? z1]; [cbn [app] in Z; subst z2; vm_compute in F; discriminate F|cbn [app] in Z; injection Z as _ Z]).
    destruct z1; [cbn [app] in Z; subst z2; contradiction|discriminate Z]. }
  destruct p as [|p0 p].
  - cbn [prefixed] in E. destruct x1 as [|? x1]; [cbn [app] in E; subst x2; intros F; vm_compute in F; discriminate F|]. injection E as _ E.
    apply (G (58 :: x1) x2); [|exact NE]. cbn [app]. rewrite <- E. reflexivity.
  - set (pp := p0 :: p) in *.
    assert (PX : prefixed pp (txt "unit") = pp ++ txt ":unit") by reflexivity. rewrite PX in E. clear PX.
    destruct x1 as [|? x1]; [cbn [app] in E; subst x2; intros F; vm_compute in F; discriminate F|]. injection E as _ E.
    rewrite <- app_assoc in E. change (txt ":unit" ++ [32]) with (txt ":unit ") in E.
    (* does the suffix start inside the prefix? *)
    assert (C : (exists k, pp = x1 ++ k /\ k <> [] /\ x2 = k ++ txt ":unit ") \/ (exists k, txt ":unit " = k ++ x2)).
    { assert (E2 : pp ++ txt ":unit " = x1 ++ x2) by exact E. clear - E2. revert x1 E2. induction pp as [|c l IH]; intros x1 E; [right; exists x1; exact E|].
      destruct x1 as [|d x1]; [left; exists (c :: l); repeat split; [discriminate|symmetry; exact E]|].
      cbn [app] in E. injection E as -> E. destruct (IH _ E) as [(k & -> & N & ->)|(k & K)]; [left; exists k; auto|right; exists k; exact K]. }
    destruct C as [(k & K1 & K2 & ->)|(k & K)]; [|exact (G k x2 K NE)].
    rewrite <- app_assoc. change (txt ":unit " ++ txt "xmlns" ++ y) with (58 :: txt "unit " ++ txt "xmlns" ++ y).
    apply prefix_occurrence; [exact K2|]. intros a b Hk. apply X. exists (x1 ++ a), b. fold pp. rewrite K1, Hk, <- app_assoc. reflexivity.
Qed.
Lemma skipn_len : forall (x y : bytes) k, skipn (length x + k) (x ++ y) = skipn k y.
Proof. induction x as [|c x IH]; intros y k; [reflexivity|]. cbn. apply IH. Qed.
Lemma insert_ok : forall p rest, prefix_ok p ->
  insert_range ([60] ++ prefixed p (txt "unit") ++ attrs ((match p with [] => txt "xmlns" | _ => txt "xmlns:" ++ p end, SRC_URI) :: rest)) =
  Ok (Z.of_nat (length ([60%N] ++ prefixed p (txt "unit"))) + 1,
      Z.of_nat (length ([60%N] ++ prefixed p (txt "unit") ++ attr (match p with [] => txt "xmlns" | _ => txt "xmlns:" ++ p end, SRC_URI))) + 1)%Z.
Proof.
  intros p rest P. unfold insert_range.
  set (suf := match p with [] => [] | _ => 58 :: p end).
  assert (N : (match p with [] => txt "xmlns" | _ => txt "xmlns:" ++ p end) = txt "xmlns" ++ suf).
  { unfold suf. destruct p; [rewrite app_nil_r; reflexivity|]. reflexivity. }
  assert (A : attrs ((match p with [] => txt "xmlns" | _ => txt "xmlns:" ++ p end, SRC_URI) :: rest) =
    [32] ++ txt "xmlns" ++ suf ++ [61; 34] ++ esc_attr SRC_URI ++ 34 :: attrs rest).
  { rewrite N. cbn [attrs flat_map]. unfold attr. cbn [fst snd]. rewrite <- !app_assoc. reflexivity. }
  rewrite A. rewrite find_decl by exact P. set (pre := [60] ++ prefixed p (txt "unit") ++ [32]).
  assert (S : [60] ++ prefixed p (txt "unit") ++ [32] ++ txt "xmlns" ++ suf ++ [61; 34] ++ esc_attr SRC_URI ++ 34 :: attrs rest =
    pre ++ txt "xmlns" ++ suf ++ [61; 34] ++ esc_attr SRC_URI ++ 34 :: attrs rest).
  { unfold pre. rewrite <- !app_assoc. reflexivity. }
  rewrite S. rewrite skipn_len.
  assert (QS : no_byte 34 suf) by (unfold suf; destruct p; [constructor|constructor; [discriminate|apply P]]).
  assert (Q1 : strchr (skipn 1 (txt "xmlns" ++ suf ++ [61; 34] ++ esc_attr SRC_URI ++ 34 :: attrs rest)) 34 = Some (length (txt "mlns" ++ suf ++ [61]))).
  { change (skipn 1 (txt "xmlns" ++ suf ++ [61; 34] ++ esc_attr SRC_URI ++ 34 :: attrs rest)) with (txt "mlns" ++ suf ++ [61] ++ 34 :: esc_attr SRC_URI ++ 34 :: attrs rest).
    replace (txt "mlns" ++ suf ++ [61] ++ 34 :: esc_attr SRC_URI ++ 34 :: attrs rest) with ((txt "mlns" ++ suf ++ [61]) ++ 34 :: esc_attr SRC_URI ++ 34 :: attrs rest)
      by (rewrite <- !app_assoc; reflexivity).
    apply strchr_app. rewrite !no_byte_app. repeat split; [repeat constructor; discriminate|exact QS|repeat constructor; discriminate]. }
  rewrite Q1.
  replace (skipn (length pre + 1 + length (txt "mlns" ++ suf ++ [61]) + 1) (pre ++ txt "xmlns" ++ suf ++ [61; 34] ++ esc_attr SRC_URI ++ 34 :: attrs rest))
    with (esc_attr SRC_URI ++ 34 :: attrs rest).
  - rewrite strchr_app by apply esc_attr_no. f_equal. f_equal.
    + unfold pre. rewrite !app_length. cbn [length]. lia.
    + unfold pre, attr. cbn [fst snd]. rewrite N. rewrite !app_length. cbn [length txt list_ascii_of_string map]. lia.
  - replace (length pre + 1 + length (txt "mlns" ++ suf ++ [61%N]) + 1)%nat with (length (pre ++ txt "xmlns" ++ suf ++ [61%N; 34%N]) + 0)%nat
      by (rewrite !app_length; cbn [length txt list_ascii_of_string map]; lia).
    replace (pre ++ txt "xmlns" ++ suf ++ [61; 34] ++ esc_attr SRC_URI ++ 34 :: attrs rest)
      with ((pre ++ txt "xmlns" ++ suf ++ [61; 34]) ++ esc_attr SRC_URI ++ 34 :: attrs rest) by (rewrite <- !app_assoc; reflexivity).
    rewrite skipn_len. reflexivity.
Qed.
