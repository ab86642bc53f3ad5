(** Which declarations stand on the tags of a unit, alone and in an archive (C34). *)
From Verif Require Import Base Text_Model Text_Spec Text_Proofs3 Api_Model Api_Spec Api_Proofs Api_Proofs3 Writer_Model Writer_Spec Writer_Proofs2 Writer_Proofs3 Writer_Proofs4 Writer_Proofs7 Writer_Proofs8 Writer_Proofs9 Archive_Model Archive_Spec Root_Model Root_Spec Root_Proofs Root_Proofs2 Root_Proofs8 Writer_Proofs10 Declared_Spec.
Local Open Scope N_scope.

Lemma merge_one : forall A l u, NoDup (map ns_uri l) ->
  find_uri (merge A l) u = match find_uri l u with Some n => st (find_uri A u) n | None => find_uri A u end.
Proof.
  intros A l u D. rewrite merge_find. destruct (find_uri l u) as [n|] eqn:E.
  - rewrite (same_nodup _ _ _ D E). reflexivity.
  - assert (Q : same u l = []).
    { unfold same. destruct (filter (fun n => beqb (ns_uri n) u) l) as [|n r] eqn:F; [reflexivity|].
      assert (J : In n (filter (fun n => beqb (ns_uri n) u) l)) by (rewrite F; left; reflexivity).
      apply filter_In in J. destruct J as (J & Bq). apply (proj1 (find_uri_none l u)) in E. exfalso. apply E.
      apply in_map_iff. exists n. split; [apply (proj1 (beqb_true _ _) Bq)|exact J]. }
    rewrite Q. reflexivity.
Qed.
Lemma grows_find : forall a b u n, grows a b -> find_uri a u = Some n -> exists m, find_uri b u = Some m /\ grows1 n m.
Proof.
  intros a b u n H. induction H as [|x y a b G H IH]; cbn [find_uri]; [discriminate|]. destruct G as (G1 & G2 & G3). rewrite G2.
  destruct (beqb (ns_uri x) u); [|exact IH]. intros E. injection E as <-. exists y. split; [reflexivity|]. repeat split; tauto.
Qed.
Lemma grows_none : forall a b u, grows a b -> find_uri a u = None -> find_uri b u = None.
Proof.
  intros a b u H. induction H as [|x y a b G H IH]; cbn [find_uri]; [reflexivity|]. destruct G as (G1 & G2 & G3). rewrite G2.
  destruct (beqb (ns_uri x) u); [discriminate|exact IH].
Qed.
Lemma grows_nodup : forall a b, grows a b -> NoDup (map ns_uri a) -> NoDup (map ns_uri b).
Proof. intros a b H D. rewrite (uris_names _ _ (grows_names _ _ H)). exact D. Qed.
Lemma flag_bit : forall n k, flag n (2 ^ k) = N.testbit (ns_flags n) k.
Proof.
  intros n k. unfold flag. destruct (N.testbit (ns_flags n) k) eqn:E.
  - apply negb_true_iff, N.eqb_neq. intros F. apply (f_equal (fun x => N.testbit x k)) in F. rewrite N.land_spec, pow2_bit, N.eqb_refl, E in F. discriminate F.
  - apply negb_false_iff, N.eqb_eq, N.bits_inj. intros i. rewrite N.land_spec, pow2_bit, N.bits_0. destruct (i =? k) eqn:Q; [|apply andb_false_r].
    apply N.eqb_eq in Q. subst i. rewrite E. reflexivity.
Qed.
(** the decision in bits: 0 required, 1 root, 2 used, 3 registered, 4 standard *)
Lemma declared_bits : forall o d n, declared o d n =
  let b := N.testbit (ns_flags n) in
  (((d =? 0) || negb (opt o B_ARCHIVE)) && (b 4 && (b 0 || (b 1 && b 2)) || b 3 && negb (b 4)))
  || (((d =? 1) || negb (opt o B_ARCHIVE)) && (b 4 && negb (b 1) && negb (b 0) && b 2)).
Proof.
  intros o d n. unfold declared. cbv zeta.
  change NS_STANDARD with (2 ^ 4). change NS_REQUIRED with (2 ^ 0). change NS_ROOT with (2 ^ 1). change NS_USED with (2 ^ 2). change NS_REGISTERED with (2 ^ 3).
  rewrite !flag_bit. reflexivity.
Qed.
(** an entry that is declared stands on the tag *)
Lemma on_tag : forall o g n u, opt (so_options o) B_NAMESPACE_DECL = true -> find_uri (ns_now o) u = Some n -> declared (so_options o) (so_depth o) n = true ->
  In (declaration (ns_prefix n) u) (tag_attrs o g).
Proof.
  intros o g n u D F C. unfold tag_attrs. rewrite D. apply in_app_iff. left. apply in_map_iff. apply find_uri_some in F. destruct F as (J & <-).
  exists n. split; [unfold ns_attr, declaration; destruct (ns_prefix n); reflexivity|apply filter_In; split; assumption].
Qed.

Lemma default_bits : forall u d, find_uri default_namespaces u = Some d -> ns_uri d = u.
Proof. intros u d F. apply find_uri_some in F. apply F. Qed.
Definition standard (u : bytes) : Prop := find_uri default_namespaces u <> None.

(** ** User namespaces on a unit of its own *)
Lemma user_on_unit : forall extract a al u lang encoding hash ts uri p,
  produced (a, al) -> uo_namespaces (wu u) = None ->
  usable a (parse_start a (wu u) lang encoding) -> clean_opt hash -> Forall good_tree ts ->
  prefix_from_uri a uri = Some p -> find_uri default_namespaces uri = None ->
  exists v, parse_unit extract a u lang encoding hash (flat_map tokens_of ts) = Ok (ST_OK, v) /\
    In (declaration p uri) (tag_attrs (unit_out a (wu v)) (start_args a (wu v) (uo_revision (wu v)))).
Proof.
  intros extract a al u lang encoding hash ts uri p PR NU U H G P NS.
  destruct (parse_ok extract a u lang encoding hash ts U H G) as (v & E & _ & _ & _ & _ & _ & UV & l & Nl & SG & _).
  exists v. split; [exact E|].
  pose proof (produced_ns_ok _ PR) as K. cbn [fst] in K.
  assert (UN : unit_namespaces a (parse_start a (wu u) lang encoding) = a_namespaces a).
  { unfold unit_namespaces. change (uo_namespaces (parse_start a (wu u) lang encoding)) with (uo_namespaces (wu u)). rewrite NU. reflexivity. }
  change (set_parse_start (wu u) lang (a_url a) encoding) with (parse_start a (wu u) lang encoding) in SG. rewrite UN in SG.
  unfold prefix_from_uri in P. destruct (find_uri (a_namespaces a) uri) as [n|] eqn:F; [|discriminate P]. injection P as P.
  assert (FL : ns_flags n = 8).
  { pose proof (find_uri_some _ _ _ F) as (J & Q). pose proof (proj1 (Forall_forall _ _) (proj1 (proj2 K)) n J) as R. unfold ns_flags_ok in R.
    destruct (bytes_dec (ns_uri n) SRC_URI) as [Z|_]; [|exact R]. exfalso. rewrite Q in Z. rewrite Z in NS. vm_compute in NS. discriminate NS. }
  pose proof (root_find _ uri K) as R. rewrite F, NS in R.
  destruct (grows_find _ _ _ _ SG R) as (n1 & F1 & P1 & _ & _ & B1).
  assert (D1 : NoDup (map ns_uri l)) by (eapply grows_nodup; [exact SG|apply merge_nodup, default_nodup]).
  assert (F2 : find_uri (so_ns (unit_out a (wu v))) uri = Some n1).
  { rewrite unit_out_ns. unfold unit_namespaces. rewrite Nl, (merge_one _ _ _ D1), F1, NS. reflexivity. }
  destruct (grows_find _ _ _ _ (grows_now (unit_out a (wu v))) F2) as (n2 & F3 & P2 & _ & _ & B2).
  rewrite <- P, <- P1, <- P2. apply on_tag; [|exact F3|].
  - change (so_options (unit_out a (wu v))) with (clear_archive (a_options a)). rewrite clear_decl. apply U.
  - rewrite declared_bits. cbv zeta. change (so_options (unit_out a (wu v))) with (clear_archive (a_options a)). rewrite no_archive.
    rewrite !(B2 3), !(B1 3), (B2 4), (B1 4), FL by discriminate. cbn [negb]. rewrite !orb_true_r.
    change (N.testbit 8 3) with true. change (N.testbit 8 4) with false. reflexivity.
Qed.

(** ** A unit in an archive *)
Lemma on_root : forall a al u p, ns_ok (a_namespaces a) -> N.testbit (a_options a) 14 = true -> N.testbit (a_options a) 8 = true ->
  root_prefix a u = Some p -> In (declaration p u) (root_attrs a al).
Proof.
  intros a al u p K A D R. destruct (proj2 (proj2 (root_decls_ok a K A)) u p R) as (n & J & <- & <-).
  unfold root_decls in J. apply filter_In in J. destruct J as (J & C). apply on_tag; [exact D| |exact C].
  apply find_in; [apply now_nodup|exact J].
Qed.
(** the prefix used for a standard namespace *)
Lemma prefix_used : forall A i u, ns_ok A -> standard_uri i = Some u ->
  find_uri (merge default_namespaces A) u <> None /\
  prefix_at i (merge default_namespaces A) = match find_uri (merge default_namespaces A) u with Some n => ns_prefix n | None => [] end.
Proof.
  intros A i u K SU. rewrite <- default_uri in SU. destruct (nth_error default_namespaces i) as [d|] eqn:Ed; [|discriminate SU]. injection SU as <-.
  destruct (merged_nth A i d Ed) as (n & E1 & _ & E2). rewrite E2. split; [discriminate|]. unfold prefix_at. rewrite E1. reflexivity.
Qed.
Lemma used_find : forall A l i u, grows (merge default_namespaces A) l -> used_at i l -> standard_uri i = Some u ->
  exists n, find_uri l u = Some n /\ N.testbit (ns_flags n) 2 = true.
Proof.
  intros A l i u SG (n & E & S0) SU. rewrite <- default_uri in SU. destruct (nth_error default_namespaces i) as [d|] eqn:Ed; [|discriminate SU].
  injection SU as <-. destruct (merged_nth A i d Ed) as (n0 & E0 & U0 & _).
  assert (U : ns_uri n = ns_uri d).
  { destruct (grows_nth _ _ _ _ SG E0) as (m & Em & _ & Um & _). rewrite E in Em. injection Em as <-. congruence. }
  exists n. split.
  - rewrite <- U. apply (find_nth l i n); [eapply grows_nodup; [exact SG|apply merge_nodup, default_nodup]|exact E].
  - unfold subflags in S0. rewrite <- S0, N.lor_spec. change (N.testbit NS_USED 2) with true. reflexivity.
Qed.
(** a namespace that belongs on the unit: not on the root, not required *)
Lemma on_member : forall a v A l u (d n c : ns), all_namespaces a v = merge default_namespaces (merge A l) ->
  NoDup (map ns_uri A) -> NoDup (map ns_uri l) ->
  find_uri default_namespaces u = Some d -> ns_flags d = 16 -> find_uri l u = Some n -> ns_flags n = 20 \/ ns_flags n = 28 ->
  opt (a_options a) B_NAMESPACE_DECL = true ->
  (find_uri A u = None \/ (find_uri A u = Some c /\ ns_flags c = 8 /\ ns_prefix c = ns_prefix n /\
     (ns_prefix c = ns_prefix d \/ (u = CPP_URI /\ N.testbit (a_options a) 13 = true)))) ->
  In (declaration (ns_prefix n) u) (member_attrs a v).
Proof.
  intros a v A l u d n c AN DA DL Fd Ff Fn Fl D FA.
  assert (DM : NoDup (map ns_uri (merge A l))) by (apply merge_nodup; exact DA).
  assert (Un : ns_uri n = u) by (apply (proj2 (find_uri_some _ _ _ Fn))). assert (Ud : ns_uri d = u) by (apply (proj2 (find_uri_some _ _ _ Fd))).
  assert (X : exists m, find_uri (all_namespaces a v) u = Some m /\ ns_prefix m = ns_prefix n /\
            ((N.testbit (ns_flags m) 2 = true \/ (u = CPP_URI /\ N.testbit (a_options a) 13 = true)) /\
             N.testbit (ns_flags m) 4 = true /\ N.testbit (ns_flags m) 0 = false /\ N.testbit (ns_flags m) 1 = false)).
  { rewrite AN, (merge_one _ _ _ DM), (merge_one _ _ _ DL), Fn.
    destruct FA as [FA|(FA & Fc & Pc & FU)]; rewrite FA; cbn [st].
    - rewrite Fd. unfold st. rewrite Un, Fd, beqb_refl. eexists. split; [reflexivity|]. cbn [ns_prefix ns_flags]. split; [reflexivity|].
      rewrite Ff. destruct Fl as [-> | ->]; repeat split; try reflexivity; left; reflexivity.
    - unfold st at 1. rewrite Un, Fd. destruct (beqb (ns_prefix c) (ns_prefix d)) eqn:Bq.
      + try rewrite Fd. unfold st. cbn [ns_uri]. rewrite (proj2 (find_uri_some _ _ _ FA)), Fd, beqb_refl. eexists. split; [reflexivity|]. cbn [ns_prefix ns_flags].
        split; [reflexivity|]. rewrite Ff, Fc. destruct Fl as [-> | ->]; repeat split; try reflexivity; left; reflexivity.
      + destruct FU as [FU|FU]; [rewrite FU, beqb_refl in Bq; discriminate Bq|].
        try rewrite Fd. unfold st. rewrite (proj2 (find_uri_some _ _ _ FA)), Fd, beqb_refl. eexists. split; [reflexivity|]. cbn [ns_prefix ns_flags].
        split; [exact Pc|]. rewrite Ff, Fc. split; [right; exact FU|]. repeat split; reflexivity. }
  destruct X as (m & F & P & US & B4 & B0 & B1).
  set (o := tag_settings a 1 (all_namespaces a v)).
  destruct (grows_find _ _ _ _ (grows_now o) F) as (m2 & F2 & P2 & _ & _ & KB).
  rewrite <- P, <- P2. unfold member_attrs. fold o. apply on_tag; [exact D|exact F2|]. rewrite declared_bits. cbv zeta. rewrite (KB 4), (KB 0), (KB 1), (KB 3) by discriminate.
  change (so_depth o) with 1. rewrite B4, B0, B1. cbn [N.eqb orb andb negb Pos.eqb].
  assert (Q : N.testbit (ns_flags m2) 2 = true).
  { destruct US as [US|(US & OB)].
    - pose proof (grows_find _ _ _ _ (grows_now o) F) as (m3 & F3 & _ & _ & Sb & _). rewrite F2 in F3. injection F3 as <-.
      unfold subflags in Sb. rewrite <- Sb, N.lor_spec, US. reflexivity.
    - assert (W : exists x, find_uri (ns_now o) u = Some (used x)).
      { unfold ns_now, mark_options. change (opt (so_options o) B_CPP_DECLARED) with (N.testbit (a_options a) 13). rewrite OB. rewrite !find_use.
        destruct (bytes_dec ERROR_URI u) as [Z|_]; [rewrite US in Z; vm_compute in Z; discriminate Z|].
        destruct (bytes_dec POSITION_URI u) as [Z|_]; [rewrite US in Z; vm_compute in Z; discriminate Z|].
        destruct (bytes_dec CPP_URI u) as [_|Z]; [|symmetry in US; contradiction]. unfold use_if.
        destruct (grows_find _ _ _ _ (grows_mark (so_ns o) SRC) F) as (x & Fx & _). rewrite Fx. exists x. reflexivity. }
      destruct W as (x & W). rewrite F2 in W. injection W as ->. unfold used. cbn [ns_flags]. rewrite N.lor_spec. apply orb_true_r. }
  rewrite Q. apply orb_true_r.
Qed.
Lemma in_archive_declared : forall extract a al u lang encoding hash ts,
  produced (a, al) -> uo_namespaces (wu u) = None -> a_revision_number a = None ->
  usable a (parse_start a (wu u) lang encoding) -> clean_opt hash -> Forall good_tree ts -> N.testbit (a_options a) 14 = true ->
  exists v, parse_unit extract a u lang encoding hash (flat_map tokens_of ts) = Ok (ST_OK, v) /\
    (forall i uri, any_uses i ts -> standard_uri i = Some uri ->
       (uri = OPENMP_URI -> prefix_from_uri a uri = None \/ prefix_from_uri a uri = Some (txt "omp")) ->
       (uri = CPP_URI -> prefix_from_uri a uri = None \/ prefix_from_uri a uri = Some (txt "cpp") \/ N.testbit (a_options a) 13 = true) ->
       (uri = POSITION_URI -> N.testbit (a_options a) 2 = true) -> (uri = ERROR_URI -> N.testbit (a_options a) 11 = true) ->
       let d := declaration (prefix_of a (parse_start a (wu u) lang encoding) i) uri in
       In d (root_attrs a al) \/ In d (member_attrs a (wu v))) /\
    (forall uri p, prefix_from_uri a uri = Some p -> find_uri default_namespaces uri = None -> In (declaration p uri) (root_attrs a al)).
Proof.
  intros extract a al u lang encoding hash ts PR NU RN U H G A.
  destruct (parse_ok extract a u lang encoding hash ts U H G) as (v & E & _ & _ & _ & _ & _ & UV & l & Nl & SG & US).
  exists v. split; [exact E|].
  pose proof (produced_ns_ok _ PR) as K. cbn [fst] in K.
  assert (UN : unit_namespaces a (parse_start a (wu u) lang encoding) = a_namespaces a).
  { unfold unit_namespaces. change (uo_namespaces (parse_start a (wu u) lang encoding)) with (uo_namespaces (wu u)). rewrite NU. reflexivity. }
  change (set_parse_start (wu u) lang (a_url a) encoding) with (parse_start a (wu u) lang encoding) in SG. rewrite UN in SG.
  assert (D8 : N.testbit (a_options a) 8 = true) by apply U.
  assert (DL : NoDup (map ns_uri l)) by (eapply grows_nodup; [exact SG|apply merge_nodup, default_nodup]).
  assert (AN : all_namespaces a (wu v) = merge default_namespaces (merge (a_namespaces a) l)) by (unfold all_namespaces; rewrite Nl, RN; reflexivity).
  split.
  - intros i uri AU SU CO CC CP CE d.
    destruct (prefix_used (a_namespaces a) i uri K SU) as (NN & PU).
    assert (DP : d = declaration (match find_uri (merge default_namespaces (a_namespaces a)) uri with Some n => ns_prefix n | None => [] end) uri).
    { unfold d, prefix_of. rewrite unit_out_ns, UN, PU. reflexivity. }
    pose proof (root_find _ uri K) as RF. rewrite default_find in RF.
    assert (ROOT : root_prefix a uri = Some (match find_uri (merge default_namespaces (a_namespaces a)) uri with Some n => ns_prefix n | None => [] end) -> In d (root_attrs a al)).
    { intros R. rewrite DP. apply on_root; assumption. }
    assert (II : (i < 5)%nat).
    { rewrite <- default_uri in SU. destruct (nth_error default_namespaces i) eqn:Ed; [|discriminate SU]. apply (proj1 (nth_error_Some default_namespaces i)). rewrite Ed. discriminate. }
    destruct (used_find _ _ _ _ SG (US i AU II) SU) as (n & Fn & Bn).
    assert (FLA : forall c, find_uri (a_namespaces a) uri = Some c -> ns_flags c = if bytes_dec uri SRC_URI then 17 else 8).
    { intros c F. apply find_uri_some in F. destruct F as (J & <-). exact (proj1 (Forall_forall _ _) (proj1 (proj2 K)) c J). }
    destruct (find_uri (merge default_namespaces (a_namespaces a)) uri) as [m|] eqn:Fm; [|contradiction NN; reflexivity].
    destruct (grows_find _ _ _ _ SG Fm) as (n' & Fn' & Pn & _ & Sn & Kn). rewrite Fn in Fn'. injection Fn' as <-.
    assert (FLG : forall f, ns_flags m = f -> f = 16 \/ f = 24 -> ns_flags n = 20 \/ ns_flags n = 28).
    { intros f Ef Q. assert (Z : ns_flags n = N.lor f 4).
      { apply N.bits_inj. intros k. destruct (N.eq_dec k 2) as [->|Nk]; [rewrite Bn; destruct Q as [-> | ->]; reflexivity|]. change 4 with NS_USED. rewrite (use_bits f k Nk), Kn, Ef by exact Nk. reflexivity. }
      rewrite Z. destruct Q as [-> | ->]; [left|right]; reflexivity. }
    assert (MEM : forall c0 df, find_uri default_namespaces uri = Some df -> ns_flags df = 16 -> ns_flags m = 16 \/ ns_flags m = 24 ->
              (find_uri (a_namespaces a) uri = None \/ (find_uri (a_namespaces a) uri = Some c0 /\ ns_flags c0 = 8 /\ ns_prefix c0 = ns_prefix m /\
                (ns_prefix c0 = ns_prefix df \/ (uri = CPP_URI /\ N.testbit (a_options a) 13 = true)))) -> In d (member_attrs a (wu v))).
    { intros c0 df Fdf Fl16 Fm16 CASES. rewrite DP, <- Pn. apply (on_member a (wu v) (a_namespaces a) l uri df n c0); try assumption.
      - apply K.
      - eapply FLG; [reflexivity|exact Fm16].
      - destruct CASES as [?|(C1 & C2 & C3 & C4)]; [left; assumption|right; repeat split; try assumption; congruence]. }
    assert (SX : In uri [SRC_URI; CPP_URI; ERROR_URI; POSITION_URI; OPENMP_URI]) by (unfold standard_uri in SU; eapply nth_error_In, SU).
    destruct SX as [<-|[<-|[<-|[<-|[<-|[]]]]]].
    + left. apply ROOT. destruct (bytes_dec SRC_URI SRC_URI) as [_|Z]; [|contradiction]. unfold root_prefix, prefix_from_uri.
      destruct (bytes_dec SRC_URI CPP_URI) as [F|_]; [vm_compute in F; discriminate F|]. destruct (bytes_dec SRC_URI OPENMP_URI) as [F|_]; [vm_compute in F; discriminate F|].
      destruct (bytes_dec SRC_URI POSITION_URI) as [F|_]; [vm_compute in F; discriminate F|]. destruct (bytes_dec SRC_URI ERROR_URI) as [F|_]; [vm_compute in F; discriminate F|].
      destruct (find_uri (a_namespaces a) SRC_URI) as [c|] eqn:Fc; [|contradiction (proj2 (proj2 K))]. injection RF as ->. reflexivity.
    + right. destruct (bytes_dec CPP_URI SRC_URI) as [F|_]; [vm_compute in F; discriminate F|]. destruct (bytes_dec CPP_URI CPP_URI) as [_|Z]; [|contradiction].
      destruct (find_uri (a_namespaces a) CPP_URI) as [c|] eqn:Fc.
      * injection RF as ->. specialize (FLA c eq_refl). cbn [ns_flags ns_prefix] in *. apply (MEM c (Ns (txt "cpp") CPP_URI 16)); [reflexivity|reflexivity|rewrite FLA; right; reflexivity|].
        right. split; [reflexivity|]. split; [exact FLA|]. split; [reflexivity|]. specialize (CC eq_refl). unfold prefix_from_uri in CC. rewrite Fc in CC.
        destruct CC as [CC|[CC|CC]]; [discriminate CC| |right; split; [reflexivity|exact CC]]. left. injection CC as CC. exact CC.
      * injection RF as ->. apply (MEM n (Ns (txt "cpp") CPP_URI 16)); [reflexivity|reflexivity|left; reflexivity|left; reflexivity].
    + left. apply ROOT. destruct (bytes_dec ERROR_URI SRC_URI) as [F|_]; [vm_compute in F; discriminate F|]. destruct (bytes_dec ERROR_URI CPP_URI) as [F|_]; [vm_compute in F; discriminate F|].
      destruct (bytes_dec ERROR_URI ERROR_URI) as [_|Z]; [|contradiction]. unfold root_prefix, prefix_from_uri.
      destruct (bytes_dec ERROR_URI CPP_URI) as [F|_]; [vm_compute in F; discriminate F|]. destruct (bytes_dec ERROR_URI OPENMP_URI) as [F|_]; [vm_compute in F; discriminate F|].
      destruct (bytes_dec ERROR_URI POSITION_URI) as [F|_]; [vm_compute in F; discriminate F|]. destruct (bytes_dec ERROR_URI ERROR_URI) as [_|Z]; [|contradiction].
      rewrite (CE eq_refl). destruct (find_uri (a_namespaces a) ERROR_URI) as [c|]; injection RF as ->; reflexivity.
    + left. apply ROOT. destruct (bytes_dec POSITION_URI SRC_URI) as [F|_]; [vm_compute in F; discriminate F|]. destruct (bytes_dec POSITION_URI CPP_URI) as [F|_]; [vm_compute in F; discriminate F|].
      destruct (bytes_dec POSITION_URI ERROR_URI) as [F|_]; [vm_compute in F; discriminate F|]. destruct (bytes_dec POSITION_URI POSITION_URI) as [_|Z]; [|contradiction]. unfold root_prefix, prefix_from_uri.
      destruct (bytes_dec POSITION_URI CPP_URI) as [F|_]; [vm_compute in F; discriminate F|]. destruct (bytes_dec POSITION_URI OPENMP_URI) as [F|_]; [vm_compute in F; discriminate F|].
      destruct (bytes_dec POSITION_URI POSITION_URI) as [_|Z]; [|contradiction].
      rewrite (CP eq_refl). destruct (find_uri (a_namespaces a) POSITION_URI) as [c|]; injection RF as ->; reflexivity.
    + right. destruct (bytes_dec OPENMP_URI SRC_URI) as [F|_]; [vm_compute in F; discriminate F|]. destruct (bytes_dec OPENMP_URI CPP_URI) as [F|_]; [vm_compute in F; discriminate F|].
      destruct (bytes_dec OPENMP_URI ERROR_URI) as [F|_]; [vm_compute in F; discriminate F|]. destruct (bytes_dec OPENMP_URI POSITION_URI) as [F|_]; [vm_compute in F; discriminate F|].
      destruct (bytes_dec OPENMP_URI OPENMP_URI) as [_|Z]; [|contradiction].
      destruct (find_uri (a_namespaces a) OPENMP_URI) as [c|] eqn:Fc.
      * injection RF as ->. specialize (FLA c eq_refl). cbn [ns_flags ns_prefix] in *. apply (MEM c (Ns (txt "omp") OPENMP_URI 16)); [reflexivity|reflexivity|rewrite FLA; right; reflexivity|].
        right. split; [reflexivity|]. split; [exact FLA|]. split; [reflexivity|]. specialize (CO eq_refl). unfold prefix_from_uri in CO. rewrite Fc in CO.
        destruct CO as [CO|CO]; [discriminate CO|]. left. injection CO as CO. exact CO.
      * injection RF as ->. apply (MEM n (Ns (txt "omp") OPENMP_URI 16)); [reflexivity|reflexivity|left; reflexivity|left; reflexivity].
  - intros uri p P NS. apply on_root; try assumption. unfold root_prefix.
    rewrite default_find in NS.
    destruct (bytes_dec uri SRC_URI); [discriminate NS|]. destruct (bytes_dec uri CPP_URI); [discriminate NS|]. destruct (bytes_dec uri ERROR_URI); [discriminate NS|].
    destruct (bytes_dec uri POSITION_URI); [discriminate NS|]. destruct (bytes_dec uri OPENMP_URI); [discriminate NS|]. exact P.
Qed.

(** ** As stated *)
Lemma standard_list : forall uri, ~ In uri [SRC_URI; CPP_URI; ERROR_URI; POSITION_URI; OPENMP_URI] -> find_uri default_namespaces uri = None.
Proof.
  intros uri H. rewrite default_find.
  destruct (bytes_dec uri SRC_URI) as [->|]; [exfalso; apply H; cbn; tauto|]. destruct (bytes_dec uri CPP_URI) as [->|]; [exfalso; apply H; cbn; tauto|].
  destruct (bytes_dec uri ERROR_URI) as [->|]; [exfalso; apply H; cbn; tauto|]. destruct (bytes_dec uri POSITION_URI) as [->|]; [exfalso; apply H; cbn; tauto|].
  destruct (bytes_dec uri OPENMP_URI) as [->|]; [exfalso; apply H; cbn; tauto|]. reflexivity.
Qed.
Lemma user_on_unit_list : forall extract a al u lang encoding hash ts uri p,
  produced (a, al) -> uo_namespaces (wu u) = None ->
  usable a (parse_start a (wu u) lang encoding) -> clean_opt hash -> Forall good_tree ts ->
  prefix_from_uri a uri = Some p -> ~ In uri [SRC_URI; CPP_URI; ERROR_URI; POSITION_URI; OPENMP_URI] ->
  exists v, parse_unit extract a u lang encoding hash (flat_map tokens_of ts) = Ok (ST_OK, v) /\
    In (declaration p uri) (tag_attrs (unit_out a (wu v)) (start_args a (wu v) (uo_revision (wu v)))).
Proof. intros. eapply user_on_unit; try eassumption. apply standard_list. assumption. Qed.
Lemma in_archive_declared_list : forall extract a al u lang encoding hash ts,
  produced (a, al) -> uo_namespaces (wu u) = None -> a_revision_number a = None ->
  usable a (parse_start a (wu u) lang encoding) -> clean_opt hash -> Forall good_tree ts -> N.testbit (a_options a) 14 = true ->
  exists v, parse_unit extract a u lang encoding hash (flat_map tokens_of ts) = Ok (ST_OK, v) /\
    (forall i uri, any_uses i ts -> standard_uri i = Some uri ->
       (uri = OPENMP_URI -> prefix_from_uri a uri = None \/ prefix_from_uri a uri = Some (txt "omp")) ->
       (uri = CPP_URI -> prefix_from_uri a uri = None \/ prefix_from_uri a uri = Some (txt "cpp") \/ N.testbit (a_options a) 13 = true) ->
       (uri = POSITION_URI -> N.testbit (a_options a) 2 = true) -> (uri = ERROR_URI -> N.testbit (a_options a) 11 = true) ->
       let d := declaration (prefix_of a (parse_start a (wu u) lang encoding) i) uri in
       In d (root_attrs a al) \/ In d (member_attrs a (wu v))) /\
    (forall uri p, prefix_from_uri a uri = Some p -> ~ In uri [SRC_URI; CPP_URI; ERROR_URI; POSITION_URI; OPENMP_URI] ->
       In (declaration p uri) (root_attrs a al)).
Proof.
  intros extract a al u lang encoding hash ts P U R US C G A.
  destruct (in_archive_declared extract a al u lang encoding hash ts P U R US C G A) as (v & E & X & Y).
  exists v. split; [exact E|]. split; [exact X|]. intros uri p Q L. apply Y; [exact Q|apply standard_list, L].
Qed.
Lemma declared_example : let a := run [RegisterNamespace (Some (txt "x")) (Some (txt "http://x")); RegisterNamespace (Some (txt "c")) (Some CPP_URI)] archive_create in
  produced (a, []) /\ usable a (parse_start a (wu (plain_unit (txt "a.c"))) 1 None) /\ N.testbit (a_options a) 14 = true /\ N.testbit (a_options a) 13 = true /\
  In (declaration (txt "x") (txt "http://x")) (root_attrs a []) /\
  exists v, parse_unit (fun s => s) a (plain_unit (txt "a.c")) 1 None None (flat_map tokens_of [TreeElem 1 (txt "include") [] [] []]) = Ok (ST_OK, v) /\
    member_attrs a (wu v) = [(txt "xmlns:c", CPP_URI); (txt "revision", txt "1.0.0"); (txt "language", txt "C"); (txt "filename", txt "a.c")].
Proof.
  cbv zeta. split; [apply produced_run|]. split.
  { split; [vm_compute; reflexivity|]. split.
    - split; [vm_compute; constructor|]. intros (x & y & F). vm_compute in F. destruct x; discriminate F.
    - unfold clean_unit, clean_ns, clean_opt, clean, no_byte. repeat split; vm_compute; repeat constructor; try discriminate. }
  split; [vm_compute; reflexivity|]. split; [vm_compute; reflexivity|]. split; [vm_compute; right; left; reflexivity|].
  eexists. split; [vm_compute; reflexivity|]. vm_compute. reflexivity.
Qed.
