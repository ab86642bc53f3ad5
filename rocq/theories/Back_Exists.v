(** There is always something to be reported of a written archive, and reading it always comes to an end (C59). *)
From Verif Require Import Base Text_Model Text_Spec Text_Proofs Text_Proofs3 Api_Model Api_Spec Api_Proofs Api_Proofs3 Writer_Model Writer_Spec Archive_Model Archive_Spec Root_Model Root_Spec Root_Proofs Root_Proofs2 Root_Proofs5 Source_Model Source_Spec Source_Proofs Source_Proofs2 Declared_Spec Whole_Spec Whole_Tags Whole_Reads Whole_Unit Whole_Archive Handoff_Model Handoff_Spec Sax_Model Sax_Spec Stream_Spec Sax_Proofs7 Back_Spec Back_Reads Back_Invert Back_Unit Back_Attrs.
Local Open Scope N_scope.

Definition mk_tag (raw : bytes) (p : option bytes) (local : bytes) (al : list (bytes * bytes)) (e : bool) : tag := Tag local p (sax_namespaces al) (sax_attributes al) raw e.
Lemma mk_is : forall raw q p local al e, xml_tag raw q al -> plain_start q -> ns_name q p local -> is_tag (mk_tag raw p local al e) q al.
Proof. intros raw q p local al e T P N. unfold is_tag, mk_tag. cbn. auto. Qed.

Definition ch (c : N) : Prop := 32 <= c \/ c = 9 \/ c = 10.
(** character data not yet told, then a tag *)
Definition rep (st : list bytes) (s : bytes) : Prop :=
  exists raw text s' l, s = raw ++ s' /\ xml_text raw text /\ Forall ch raw /\ hd 0 s' = 60 /\ reports st s' l.
Lemma blank_same : forall raw text, xml_text raw text -> Forall (fun c => c = 32 \/ c = 10) raw -> raw = text.
Proof.
  induction 1 as [|c e d A B C H IH|e d H IH|e d H IH|e d H IH]; intros F; [reflexivity|f_equal; apply IH, (Forall_inv_tail F)|..]; exfalso; destruct (Forall_inv F) as [Z|Z]; discriminate Z.
Qed.
Lemma rep_reports : forall n st s, rep (n :: st) s -> exists l, reports (n :: st) s l.
Proof.
  intros n st s (raw & text & s' & l & -> & X & C & H & R). destruct raw as [|c raw]; [exists l; exact R|].
  exists ([XText false (c :: raw) text] ++ l). apply rp_chars; [|exact H|exact R]. split; [discriminate|]. split.
  - rewrite <- (app_nil_r (c :: raw)) at 1. apply pc_cons; [discriminate|exact X|exact C|discriminate|constructor].
  - intros B _. rewrite <- (blank_same _ _ X B). reflexivity.
Qed.
Lemma rep_tag : forall st s l, hd 0 s = 60 -> reports st s l -> rep st s.
Proof. intros st s l H R. exists [], [], s, l. split; [reflexivity|]. split; [constructor|]. split; [constructor|]. split; assumption. Qed.
Lemma rep_end : forall n p local st s, ns_name n p local -> (exists l, reports st s l) -> rep (n :: st) (txt "</" ++ n ++ [62] ++ s).
Proof. intros n p local st s N (l & R). eapply rep_tag; [reflexivity|]. eapply rp_end; eassumption. Qed.
Lemma rep_start : forall n st raw q p local al s, xml_tag raw q al -> plain_start q -> ns_name q p local -> rep (q :: n :: st) s -> rep (n :: st) (raw ++ [62] ++ s).
Proof.
  intros n st raw q p local al s T P N R. apply rep_reports in R as (l & R). pose proof (mk_is raw q p local al false T P N) as I. destruct (tag_raw _ _ _ I) as (r & E). cbn in E.
  eapply rep_tag; [rewrite E; reflexivity|]. exact (rp_start n st (mk_tag raw p local al false) q al s l I eq_refl R).
Qed.
Lemma rep_empty : forall n st raw q p local al s, xml_tag raw q al -> plain_start q -> ns_name q p local -> rep (n :: st) s -> rep (n :: st) (raw ++ txt "/>" ++ s).
Proof.
  intros n st raw q p local al s T P N R. apply rep_reports in R as (l & R). pose proof (mk_is raw q p local al true T P N) as I. destruct (tag_raw _ _ _ I) as (r & E). cbn in E.
  eapply rep_tag; [rewrite E; reflexivity|]. exact (rp_empty n st (mk_tag raw p local al true) q al s l I eq_refl R).
Qed.
Lemma text_app : forall a b c d, xml_text a b -> xml_text c d -> xml_text (a ++ c) (b ++ d).
Proof. induction 1; intros X; [exact X|apply xt_plain; auto|apply xt_lt; auto|apply xt_gt; auto|apply xt_amp; auto]. Qed.
Lemma esc_ch : forall s, Forall ch s -> Forall ch (process_text s).
Proof.
  intros s F. unfold process_text. destruct (strpbrk_special s); [|exact F]. induction s as [|c s IH]; [constructor|]. cbn [flat_map]. apply Forall_app. split; [|apply IH, (Forall_inv_tail F)].
  unfold esc_char. destruct (c =? 60); [|destruct (c =? 62); [|destruct (c =? 38); [|constructor; [exact (Forall_inv F)|constructor]]]]; (repeat (constructor; [left; vm_compute; discriminate|])); constructor.
Qed.
Lemma rep_text : forall st x s, Forall ch x -> rep st s -> rep st (process_text x ++ s).
Proof.
  intros st x s F (raw & text & s' & l & -> & X & C & H & R). exists (process_text x ++ raw), (x ++ text), s', l. split; [apply app_assoc|]. split.
  - apply text_app; [|exact X]. apply process_text_ok. eapply Forall_impl; [|exact F]. intros c C0 ->. destruct C0 as [Z|[Z|Z]]; [vm_compute in Z; apply Z; reflexivity|discriminate Z..].
  - split; [apply Forall_app; split; [apply esc_ch, F|exact C]|]. split; assumption.
Qed.
Lemma forest_rep : forall ts s, Source_Spec.shows ts s -> forall pre, (forall i, any_uses i ts -> prefix_name (pre i)) ->
  forall m st rest, rep (m :: st) rest -> rep (m :: st) (flat_map (tree_xml pre) ts ++ rest).
Proof.
  induction 1 as [|x ts r F H IH|c ts r L H IH|i n al ts r Nn En Ne Fa H IH|i n al pl kids k ts r Nn En Ne Fa HK IHK H IH]; intros pre U m st rest R.
  - exact R.
  - cbn [flat_map tree_xml]. rewrite <- app_assoc. apply rep_text; [exact F|]. apply IH; [|exact R]. intros i V. apply U. right. exact V.
  - specialize (IH pre (fun i V => U i (or_intror V)) m st rest R).
    destruct (prefixed_ns (pre 0%nat) (txt "escape") (U 0%nat (or_introl eq_refl))) as (Q & E & NN); [name_ok|split; discriminate|].
    cbn [flat_map tree_xml]. rewrite <- !app_assoc. rewrite !(app_assoc [60]), (app_assoc _ (attrs _)). rewrite <- (app_assoc [60]).
    exact (rep_empty m st _ _ _ _ _ _ (fine_tag _ _ Q (control_value_fine c L)) E NN IH).
  - specialize (IH pre (fun i V => U i (or_intror V)) m st rest R).
    destruct (prefixed_ns (pre i) n (U i (or_introl eq_refl)) Nn En) as (Q & E & NN).
    cbn [flat_map tree_xml]. rewrite <- !app_assoc. rewrite !(app_assoc [60]), (app_assoc _ (attrs _)). rewrite <- (app_assoc [60]).
    exact (rep_empty m st _ _ _ _ _ _ (fine_tag _ _ Q Fa) E NN IH).
  - specialize (IH pre (fun i V => U i (or_intror V)) m st rest R).
    destruct (prefixed_ns (pre i) n (U i (or_introl (or_introl eq_refl))) Nn En) as (Q & E & NN).
    assert (UK : forall j, any_uses j kids -> prefix_name (pre j)).
    { intros j V. apply U. left. right. clear -V. induction kids as [|t kids IHk]; [exact V|]. destruct V as [V|V]; [left; exact V|right; apply IHk, V]. }
    specialize (IHK pre UK). destruct kids as [|t0 kids'].
    + cbn [flat_map tree_xml]. rewrite <- !app_assoc. rewrite (app_assoc (attrs al) (attrs pl)), <- attrs_app. rewrite !(app_assoc [60]), (app_assoc _ (attrs _)). rewrite <- (app_assoc [60]).
      exact (rep_empty m st _ _ _ _ _ _ (fine_tag _ _ Q Fa) E NN IH).
    + set (ks := t0 :: kids') in *.
      assert (E0 : flat_map (tree_xml pre) (TreeElem i n al (attrs pl) ks :: ts) ++ rest =
        ([60] ++ prefixed (pre i) n ++ attrs (al ++ pl)) ++ [62] ++ flat_map (tree_xml pre) ks ++ txt "</" ++ prefixed (pre i) n ++ [62] ++ flat_map (tree_xml pre) ts ++ rest).
      { cbn [flat_map]. change (tree_xml pre (TreeElem i n al (attrs pl) ks)) with
          ([60] ++ prefixed (pre i) n ++ attrs al ++ attrs pl ++ [62] ++ flat_map (tree_xml pre) ks ++ txt "</" ++ prefixed (pre i) n ++ [62]).
        rewrite attrs_app, <- !app_assoc. reflexivity. }
      rewrite E0. apply (rep_start m st _ _ _ _ _ _ (fine_tag _ _ Q Fa) E NN). apply IHK. exact (rep_end _ _ _ _ _ NN (rep_reports _ _ _ IH)).
Qed.
Lemma macros_rep : forall ms m st rest, Forall (fun p => xml_chars (fst p) /\ xml_chars (snd p)) ms -> rep (m :: st) rest -> rep (m :: st) (flat_map macro_xml ms ++ rest).
Proof.
  induction ms as [|p ms IH]; intros m st rest F R; [exact R|]. destruct (Forall_inv F) as (C1 & C2). specialize (IH m st rest (Forall_inv_tail F) R).
  set (A := [(txt "token", fst p); (txt "type", snd p)]).
  assert (NN : ncname (txt "macro-list")) by name_ok.
  assert (FA : fine_attrs A).
  { split; [constructor; [|constructor; [|constructor]]; cbn [fst snd]; (split; [assert (N : ncname (txt "token") /\ ncname (txt "type")) by (split; name_ok); first [exact (proj1 (proj1 N))|exact (proj1 (proj2 N))]|split; [reflexivity|assumption]])|].
    constructor; [intros [E|[]]; discriminate E|constructor; [intros []|constructor]]. }
  assert (PS : plain_start (txt "macro-list")) by (split; discriminate). assert (NM : ns_name (txt "macro-list") None (txt "macro-list")) by (split; [exact NN|reflexivity]).
  pose proof (rep_empty m st _ _ None (txt "macro-list") _ _ (fine_tag _ _ (proj1 NN) FA) PS NM IH) as RR.
  cbn [flat_map app]. rewrite <- app_assoc. unfold macro_xml. rewrite <- app_assoc. rewrite <- app_assoc. rewrite <- app_assoc in RR. exact RR.
Qed.
Lemma member_rep : forall extract a al x ts s m st rest, produced (a, al) -> a_revision_number a = None -> fine_archive a al -> parsed_in extract a x ts s ->
  rep (m :: st) rest -> rep (m :: st) (unit_doc a 1 x ++ rest).
Proof.
  intros extract a al x ts s m st rest PR RN FA PI R. pose proof (produced_ns_ok _ PR) as K. cbn [fst] in K.
  destruct (parsed_facts extract a al x ts s RN (proj1 K) FA PI) as (X & C & SN & FG). set (v := snd (fst x)) in *. assert (MO := out_fine a al 1 _ FA SN).
  destruct PI as (u & lang & encoding & hash & w & N0 & U & H & FU & SH & P & XW & GU).
  set (pre := fun i => prefix_at i (Archive_Spec.root_namespaces a)) in *. set (o := tag_settings a 1 (all_namespaces a v)) in *.
  assert (P0 : pre 0%nat = prefix_at SRC (so_ns o)) by (symmetry; apply same_at; exact SN).
  assert (PZ : prefix_name (pre 0%nat)) by (apply fine_prefix; exact (fa_ns _ _ FA)).
  destruct (tag_ok o _ MO FG) as (TF & TD). destruct (prefixed_ns (pre 0%nat) (txt "unit") PZ) as (Q & E & NN); [name_ok|split; discriminate|].
  assert (T : xml_tag (start_tag o (in_archive_args a a v)) (prefixed (pre 0%nat) (txt "unit")) (tag_attrs o (in_archive_args a a v))).
  { exists (attrs (tag_attrs o (in_archive_args a a v))). split; [unfold start_tag; rewrite <- P0; reflexivity|]. split; [exact Q|]. apply attrs_read; assumption. }
  assert (EU : unit_doc a 1 x = unit_xml (start_tag o (in_archive_args a a v)) (prefixed (pre 0%nat) (txt "unit")) (nonempty (flat_map (tree_xml pre) ts))).
  { unfold unit_doc. rewrite X. cbn [fst snd]. rewrite C, P0. reflexivity. }
  rewrite EU. destruct (flat_map (tree_xml pre) ts) as [|c cs] eqn:CC; cbn [nonempty unit_xml].
  - rewrite <- app_assoc. exact (rep_empty m st _ _ _ _ _ _ T E NN R).
  - rewrite <- !app_assoc. apply (rep_start m st _ _ _ _ _ _ T E NN). rewrite <- CC.
    apply (forest_rep ts s SH pre); [intros i _; apply fine_prefix; exact (fa_ns _ _ FA)|]. exact (rep_end _ _ _ _ _ NN (rep_reports _ _ _ R)).
Qed.
Lemma newline_rep : forall st s, rep st s -> rep st ([10; 10] ++ s).
Proof. intros st s R. change [10; 10] with (process_text [10; 10]). apply rep_text; [|exact R]. repeat (constructor; [right; right; reflexivity|]). constructor. Qed.
(** reports of any written archive *)
Theorem something_reported : forall extract a al us tss,
  produced (a, al) -> fine_archive a al -> a_revision_number a = None -> Forall2 (fun x p => parsed_in extract a x (fst p) (snd p)) us tss -> us <> [] ->
  exists d evs, Archive_Spec.archive_doc a al us = xml_declaration a ++ instruction a ++ d ++ [10] /\ reported (instruction a) d evs.
Proof.
  intros extract a al us tss PR FA RN F NE. destruct (root_fine a al FA) as (RO & RG). destruct (tag_ok _ _ RO RG) as (TF & TD).
  set (L0 := Declared_Spec.root_attrs a al) in *. set (p0 := prefix_at SRC (Archive_Spec.root_namespaces a)) in *.
  destruct (prefixed_ns p0 (txt "unit")) as (Q & E & NN); [apply fine_prefix; exact (fa_ns _ _ FA)|name_ok|split; discriminate|]. set (n := prefixed p0 (txt "unit")) in *.
  assert (T : xml_tag (root_tag a al) n L0).
  { exists (attrs L0). split; [reflexivity|]. split; [exact Q|]. apply attrs_read; assumption. }
  assert (R : rep [n] (flat_map macro_xml (pairs_of (a_macros a)) ++ flat_map (fun x => [10; 10] ++ unit_doc a 1 x) us ++ [10; 10] ++ txt "</" ++ n ++ [62] ++ [])).
  { apply macros_rep; [exact (fa_macros _ _ FA)|]. assert (R0 : rep [n] ([10; 10] ++ txt "</" ++ n ++ [62] ++ [])) by (apply newline_rep, (rep_end _ _ _ _ _ NN); exists []; constructor).
    clear -F R0 PR FA RN. induction F as [|x p us tss H F IH]; [exact R0|]. cbn [flat_map]. rewrite <- !app_assoc. apply newline_rep. exact (member_rep extract a al x _ _ n [] _ PR RN FA H IH). }
  apply rep_reports in R as (l & R). pose proof (mk_is _ _ _ _ _ false T E NN) as I.
  exists (root_tag a al ++ [62] ++ flat_map macro_xml (pairs_of (a_macros a)) ++ flat_map (fun x => [10; 10] ++ unit_doc a 1 x) us ++ [10; 10] ++ txt "</" ++ n ++ [62] ++ []).
  exists (match a_pi a with Some (t, d) => [XPI (txt "<?" ++ t ++ [32] ++ d ++ txt "?>"); XSkip [10]] | None => [] end ++ XStart (mk_tag (root_tag a al) (prefix_opt p0) (txt "unit") L0 false) :: l ++ [XSkip [10]]). split.
  - unfold Archive_Spec.archive_doc. destruct us as [|x us]; [contradiction|]. do 2 f_equal. cbn [unit_xml]. change (element_name (Archive_Spec.root_namespaces a)) with n. change (txt ">") with [62].
    unfold macro_list. rewrite app_nil_r, <- !app_assoc. reflexivity.
  - eexists _, _, _, _, _. split; [|split; [|split; [exact I|split; [reflexivity|left; split; [reflexivity|eexists; split; [reflexivity|exact R]]]]]].
    + destruct (a_pi a) as [(t, d)|]; repeat (constructor; [split; [exact Logic.I|discriminate]|]); constructor.
    + unfold instruction. destruct (a_pi a) as [(t, d)|]; [|reflexivity]. unfold text_of. cbn [map concat xtext]. rewrite <- !app_assoc. reflexivity.
Qed.
