(** The document of one unit is read back. *)
From Verif Require Import Base Text_Model Text_Spec Text_Proofs Text_Proofs3 Api_Model Api_Spec Api_Proofs Api_Proofs3 Writer_Model Writer_Spec Writer_Proofs2 Writer_Proofs3 Writer_Proofs7 Writer_Proofs8 Writer_Proofs9 Archive_Model Archive_Spec Archive_Proofs4 Archive_Declared Root_Model Root_Spec Root_Proofs Root_Proofs2 Root_Proofs3 Root_Proofs5 Root_Proofs7 Source_Model Source_Spec Source_Proofs Source_Proofs2 Source_Proofs3 Source_Proofs4 Whole_Spec Whole_Tags Whole_Names Whole_Reads Whole_Unit Whole_Archive Declared_Spec.
Local Open Scope N_scope.

(** a standard namespace stands on the tag of a lone unit if it is required or used *)
Lemma on_lone : forall a v u m, N.testbit (a_options a) 14 = false -> N.testbit (a_options a) 8 = true -> find_uri (all_namespaces a v) u = Some m -> N.testbit (ns_flags m) 4 = true ->
  N.testbit (ns_flags m) 0 = true \/ N.testbit (ns_flags m) 2 = true \/ (u = CPP_URI /\ N.testbit (a_options a) 13 = true) \/ (u = POSITION_URI /\ N.testbit (a_options a) 2 = true) \/ (u = ERROR_URI /\ N.testbit (a_options a) 11 = true) ->
  In (declaration (ns_prefix m) u) (lone_attrs a v).
Proof.
  intros a v u m A D F B4 H. set (o := tag_settings a 0 (all_namespaces a v)).
  destruct (grows_find _ _ _ _ (grows_now o) F) as (m2 & F2 & P2 & _ & Sb & KB). rewrite <- P2. unfold lone_attrs. fold o. apply on_tag; [exact D|exact F2|].
  rewrite declared_bits. cbv zeta. change (opt (so_options o) B_ARCHIVE) with (N.testbit (a_options a) 14). rewrite A. rewrite (KB 4), B4 by discriminate. cbn [negb orb]. rewrite !orb_true_r. cbn [andb negb].
  assert (X : N.testbit (ns_flags m2) 0 = true \/ N.testbit (ns_flags m2) 2 = true).
  { destruct H as [H|[H|H]]; [left; rewrite (KB 0) by discriminate; exact H|right; unfold subflags in Sb; rewrite <- Sb, N.lor_spec, H; reflexivity|]. right.
    assert (W : exists x, find_uri (ns_now o) u = Some (used x)).
    { destruct (grows_find _ _ _ _ (grows_mark (so_ns o) SRC) F) as (x & Fx & _). unfold ns_now, mark_options.
      change (opt (so_options o) B_CPP_DECLARED) with (N.testbit (a_options a) 13). change (opt (so_options o) B_POSITION) with (N.testbit (a_options a) 2). change (opt (so_options o) B_DEBUG) with (N.testbit (a_options a) 11).
      rewrite !find_use. destruct H as [(-> & E)|[(-> & E)|(-> & E)]]; rewrite E, Fx.
      - destruct (bytes_dec ERROR_URI CPP_URI) as [Z|_]; [vm_compute in Z; discriminate Z|]. destruct (bytes_dec POSITION_URI CPP_URI) as [Z|_]; [vm_compute in Z; discriminate Z|].
        destruct (bytes_dec CPP_URI CPP_URI); [|contradiction]. exists x. reflexivity.
      - destruct (bytes_dec ERROR_URI POSITION_URI) as [Z|_]; [vm_compute in Z; discriminate Z|]. destruct (bytes_dec POSITION_URI POSITION_URI); [|contradiction].
        destruct (bytes_dec CPP_URI POSITION_URI) as [Z|_]; [vm_compute in Z; discriminate Z|]. exists x. reflexivity.
      - destruct (bytes_dec POSITION_URI ERROR_URI) as [Z|_]; [vm_compute in Z; discriminate Z|]. destruct (bytes_dec ERROR_URI ERROR_URI); [|contradiction].
        destruct (bytes_dec CPP_URI ERROR_URI) as [Z|_]; [vm_compute in Z; discriminate Z|]. exists x. reflexivity. }
    destruct W as (x & W). rewrite F2 in W. injection W as ->. unfold used. cbn [ns_flags]. rewrite N.lor_spec. apply orb_true_r. }
  destruct X as [X|X]; rewrite X; repeat match goal with |- context [N.testbit (ns_flags m2) ?k] => destruct (N.testbit (ns_flags m2) k) end; reflexivity.
Qed.
Lemma standard_find : forall A l u d, NoDup (map ns_uri (merge A l)) -> find_uri default_namespaces u = Some d ->
  exists m, find_uri (merge default_namespaces (merge A l)) u = Some m /\ (forall k, N.testbit (ns_flags d) k = true -> N.testbit (ns_flags m) k = true) /\
    forall n, find_uri (merge A l) u = Some n -> forall k, N.testbit (ns_flags n) k = true -> N.testbit (ns_flags m) k = true.
Proof.
  intros A l u d ND Fd. rewrite (merge_one _ _ _ ND), Fd. destruct (find_uri (merge A l) u) as [n|] eqn:Fn.
  - unfold st. rewrite (proj2 (find_uri_some _ _ _ Fn)), Fd, beqb_refl. eexists. split; [reflexivity|]. cbn [ns_flags]. split.
    + intros k E. rewrite N.lor_spec, E. reflexivity.
    + intros n' E k Ek. injection E as <-. rewrite N.lor_spec, Ek. apply orb_true_r.
  - exists d. split; [reflexivity|]. split; [auto|]. intros n' E. discriminate E.
Qed.
Lemma lone_declared : forall extract a al u lang encoding hash ts v,
  produced (a, al) -> uo_namespaces (wu u) = None -> a_revision_number a = None ->
  usable a (parse_start a (wu u) lang encoding) -> clean_opt hash -> Forall good_tree ts -> N.testbit (a_options a) 14 = false ->
  parse_unit extract a u lang encoding hash (flat_map tokens_of ts) = Ok (ST_OK, v) ->
  (exists p, find_uri (all_namespaces a (wu v)) SRC_URI = Some p /\ In (declaration (ns_prefix p) SRC_URI) (lone_attrs a (wu v))) /\
  forall i uri, any_uses i ts -> standard_uri i = Some uri ->
    (uri = OPENMP_URI -> prefix_from_uri a uri = None \/ prefix_from_uri a uri = Some (txt "omp")) ->
    (uri = CPP_URI -> prefix_from_uri a uri = None \/ prefix_from_uri a uri = Some (txt "cpp") \/ N.testbit (a_options a) 13 = true) ->
    (uri = POSITION_URI -> N.testbit (a_options a) 2 = true) -> (uri = ERROR_URI -> N.testbit (a_options a) 11 = true) ->
    exists p, find_uri (all_namespaces a (wu v)) uri = Some p /\ In (declaration (ns_prefix p) uri) (lone_attrs a (wu v)).
Proof.
  intros extract a al u lang encoding hash ts v PR N0 RN U H G A P.
  destruct (parse_ok extract a u lang encoding hash ts U H G) as (w & E & _ & _ & _ & _ & _ & UV & l & Nl & SG & US). rewrite P in E. injection E as <-.
  pose proof (produced_ns_ok _ PR) as K. cbn [fst] in K.
  assert (UN : unit_namespaces a (parse_start a (wu u) lang encoding) = a_namespaces a).
  { unfold unit_namespaces. change (uo_namespaces (parse_start a (wu u) lang encoding)) with (uo_namespaces (wu u)). rewrite N0. reflexivity. }
  change (set_parse_start (wu u) lang (a_url a) encoding) with (parse_start a (wu u) lang encoding) in SG. rewrite UN in SG.
  assert (D8 : N.testbit (a_options a) 8 = true) by apply U.
  assert (DL : NoDup (map ns_uri l)) by (eapply grows_nodup; [exact SG|apply merge_nodup, default_nodup]).
  assert (AN : all_namespaces a (wu v) = merge default_namespaces (merge (a_namespaces a) l)) by (unfold all_namespaces; rewrite Nl, RN; reflexivity).
  assert (DM : NoDup (map ns_uri (merge (a_namespaces a) l))) by (apply merge_nodup, K).
  split.
  - destruct (standard_find (a_namespaces a) l SRC_URI _ DM eq_refl) as (m & Fm & B & _). rewrite <- AN in Fm. exists m. split; [exact Fm|].
    apply on_lone; try assumption; [apply B; reflexivity|left; apply B; reflexivity].
  - intros i uri AU SU CO CC CP CE.
    assert (II : (i < 5)%nat).
    { rewrite <- default_uri in SU. destruct (nth_error default_namespaces i) eqn:Ed; [|discriminate SU]. apply (proj1 (nth_error_Some default_namespaces i)). rewrite Ed. discriminate. }
    destruct (used_find _ _ _ _ SG (US i AU II) SU) as (n & Fn & Bn).
    assert (SX : In uri [SRC_URI; CPP_URI; ERROR_URI; POSITION_URI; OPENMP_URI]) by (unfold standard_uri in SU; eapply nth_error_In, SU).
    assert (SD : exists d, find_uri default_namespaces uri = Some d /\ N.testbit (ns_flags d) 4 = true) by (destruct SX as [<-|[<-|[<-|[<-|[<-|[]]]]]]; eexists; split; reflexivity).
    destruct SD as (d & Fd & B4). destruct (standard_find (a_namespaces a) l uri d DM Fd) as (m & Fm & B & C). rewrite <- AN in Fm. exists m. split; [exact Fm|].
    apply on_lone; try assumption; [apply B; exact B4|].
    assert (MEM : prefix_from_uri a uri = None \/ prefix_from_uri a uri = Some (ns_prefix d) -> N.testbit (ns_flags m) 2 = true).
    { intros Q. assert (X := merge_one (a_namespaces a) l uri DL). rewrite Fn in X. unfold prefix_from_uri in Q. destruct (find_uri (a_namespaces a) uri) as [c|] eqn:Fc.
      - destruct Q as [Q|Q]; [discriminate Q|]. injection Q as Q. unfold st in X. rewrite (proj2 (find_uri_some _ _ _ Fn)), Fd, Q, beqb_refl in X.
        apply (C _ X). cbn [ns_flags]. rewrite N.lor_spec, Bn. apply orb_true_r.
      - apply (C _ X). exact Bn. }
    destruct SX as [<-|[<-|[<-|[<-|[<-|[]]]]]].
    + left. apply B. injection Fd as <-. reflexivity.
    + injection Fd as <-. destruct (CC eq_refl) as [Q|[Q|Q]]; [right; left; apply MEM; left; exact Q|right; left; apply MEM; right; exact Q|right; right; left; auto].
    + right. right. right. right. auto.
    + right. right. right. left. auto.
    + injection Fd as <-. right. left. apply MEM. auto.
Qed.
Theorem unit_read_as_xml : forall extract a x ts s, produced (a, []) -> fine_archive a [] -> N.testbit (a_options a) 14 = false -> a_revision_number a = None ->
  parsed_in extract a x ts s ->
  exists d e, solitary_doc a x = xml_declaration a ++ instruction a ++ d ++ [10] /\ xml_document d e /\ unit_is a (lone_attrs a (snd (fst x))) ts s e.
Proof.
  intros extract a x ts s PR FA A RN PI. pose proof (produced_ns_ok _ PR) as K. cbn [fst] in K.
  destruct (parsed_facts extract a [] x ts s RN (proj1 K) FA PI) as (X & C & SN & FG). set (v := snd (fst x)) in *.
  assert (MO := out_fine a [] 0 _ FA SN).
  destruct PI as (u & lang & encoding & hash & w & N0 & U & H & FU & SH & P & XW & GU). rewrite X in XW. injection XW as V. rewrite V in *.
  destruct (lone_declared extract a [] u lang encoding hash ts w PR N0 RN U H (shows_good _ _ SH) A P) as (D0 & DE).
  assert (PX : forall i uri p, standard_uri i = Some uri -> find_uri (all_namespaces a (wu w)) uri = Some p -> ns_prefix p = prefix_at i (root_namespaces a)).
  { intros i uri p SU F. destruct (prefix_used (a_namespaces a) i uri K SU) as (NN & PU). unfold root_namespaces. rewrite PU.
    pose proof (find_names _ _ uri SN) as FN. rewrite F in FN. unfold root_namespaces in FN. destruct (find_uri (merge default_namespaces (a_namespaces a)) uri); cbn in FN; [injection FN as FN; exact FN|discriminate FN]. }
  set (pre := fun i => prefix_at i (root_namespaces a)) in *.
  destruct (unit_told (tag_settings a 0 (all_namespaces a (wu w))) (in_archive_args a a (wu w)) pre ts s [] MO FG SH) as (b & TB & EX & _ & RD).
  - intros i _. apply fine_prefix. exact (fa_ns _ _ FA).
  - symmetry. apply same_at. exact SN.
  - apply fine_prefix. exact (fa_ns _ _ FA).
  - rewrite app_nil_r. apply (lookup_alone _ _ _ _ MO FG). destruct D0 as (p & F & I). rewrite (PX 0%nat _ _ eq_refl F) in I. exact I.
  - exists (unit_doc a 0 x), (XStart (txt "unit") (Some SRC_URI) (sax_attributes (lone_attrs a (wu w))) :: b ++ [XEnd]). split; [reflexivity|]. split.
    + unfold unit_doc. rewrite X. cbn [fst snd]. rewrite C. exact (RD eq_refl).
    + exists b, (uri_in pre (sax_namespaces (lone_attrs a (wu w)) ++ [])). split; [reflexivity|]. split; [exact TB|]. split.
      * intros i q AU SU C1 C2 C3 C4. unfold uri_in. rewrite app_nil_r. apply (lookup_alone _ _ _ _ MO FG).
        destruct (DE i q AU SU C1 C2 C3 C4) as (p & F & I). rewrite (PX i _ _ SU F) in I. exact I.
      * unfold extract_src. cbn [extract_events extract_event]. change (beqb (txt "unit") (txt "escape")) with false. cbn [obind andb]. rewrite EX. reflexivity.
Qed.
