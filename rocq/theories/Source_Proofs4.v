(** The source of a parsed unit is extracted from its srcML. *)
From Verif Require Import Base Text_Model Text_Spec Text_Proofs Text_Proofs3 Api_Model Api_Spec Api_Proofs Api_Proofs3 Writer_Model Writer_Spec Writer_Proofs2 Writer_Proofs3 Writer_Proofs7 Writer_Proofs8 Writer_Proofs10 Archive_Model Archive_Spec Root_Model Root_Spec Root_Proofs Root_Proofs2 Root_Proofs3 Root_Proofs4 Root_Proofs5 Source_Model Source_Spec Source_Proofs Source_Proofs2 Source_Proofs3.
Local Open Scope N_scope.

Lemma names_eq : forall l1 l2, NoDup (map ns_uri l1) -> map ns_uri l1 = map ns_uri l2 ->
  (forall u, option_map ns_prefix (find_uri l1 u) = option_map ns_prefix (find_uri l2 u)) -> same_names l1 l2.
Proof.
  unfold same_names. induction l1 as [|m l1 IH]; intros [|m2 l2] ND E F; try discriminate; [reflexivity|]. cbn [map] in *. injection E as E1 E2.
  inversion ND as [|x y NI ND']; subst. f_equal.
  - specialize (F (ns_uri m)). cbn [find_uri] in F. rewrite <- E1, beqb_refl in F. cbn in F. injection F as ->. rewrite E1. reflexivity.
  - apply IH; [exact ND'|exact E2|]. intros u. specialize (F u). cbn [find_uri] in F. rewrite E1 in F. destruct (beqb (ns_uri m2) u) eqn:B; [|exact F].
    apply beqb_true in B. subst u. rewrite (proj2 (find_uri_none l1 _)), (proj2 (find_uri_none l2 _)); [reflexivity| |].
    + rewrite <- E2, <- E1. exact NI.
    + rewrite <- E1. exact NI.
Qed.
Lemma seen_skip : forall seen l m, (forall x, In x l -> In x seen) -> first_seen seen (l ++ m) = first_seen seen m.
Proof.
  induction l as [|x l IH]; intros m H; [reflexivity|]. cbn [app first_seen]. destruct (in_dec (list_eq_dec N.eq_dec) x seen) as [I|I]; [|destruct I; apply H; left; reflexivity].
  apply IH. intros y Y. apply H. right. exact Y.
Qed.
Lemma seen_again : forall l seen, NoDup l -> (forall x, In x l -> ~ In x seen) -> first_seen seen l = l.
Proof.
  induction l as [|x l IH]; intros seen ND H; [reflexivity|]. cbn [first_seen]. inversion ND as [|y k NI ND2]; subst.
  destruct (in_dec (list_eq_dec N.eq_dec) x seen) as [I|I]; [destruct (H x (or_introl eq_refl) I)|]. f_equal. apply IH; [exact ND2|].
  intros y Y [->|Z]; [contradiction|]. exact (H y (or_intror Y) Z).
Qed.
Lemma merged_again : forall l l', same_names l' (merge default_namespaces l) -> same_names (merge default_namespaces l') (merge default_namespaces l).
Proof.
  intros l l' H. pose proof (uris_names _ _ H) as U. pose proof (merge_uris l default_namespaces) as U1.
  assert (ND : NoDup (map ns_uri l')) by (rewrite U; apply merge_nodup, default_nodup).
  apply names_eq; [apply merge_nodup, default_nodup| |].
  - rewrite merge_uris, U, U1. f_equal. rewrite seen_skip by auto. destruct (first_seen_nodup (map ns_uri l) (map ns_uri default_namespaces)) as (A & B).
    apply seen_again; [exact A|]. intros x X. apply B, X.
  - intros u. rewrite <- (find_names _ _ u H). rewrite merge_find.
    destruct (find_uri l' u) as [n|] eqn:F.
    + rewrite (same_nodup l' u n ND F). cbn [fold_left]. destruct (find_uri default_namespaces u) as [d|] eqn:D; [|reflexivity].
      destruct (find_uri_some _ _ _ F) as (_ & Un). unfold st. rewrite Un, D, beqb_refl. reflexivity.
    + assert (X : In u (map ns_uri l') -> False). { intros I. destruct (proj1 (find_uri_none l' u) F I). }
      destruct (find_uri default_namespaces u) as [d|] eqn:D; [exfalso; apply X; rewrite U, U1; apply in_or_app; left; destruct (find_uri_some _ _ _ D) as (I & <-); apply in_map, I|].
      assert (E : same u l' = []).
      { unfold same. destruct (filter _ l') as [|n k] eqn:Q; [reflexivity|]. assert (I : In n (n :: k)) by (left; reflexivity). rewrite <- Q in I. apply filter_In in I as (I & J).
        apply beqb_true in J. destruct X. rewrite <- J. apply in_map, I. }
      rewrite E. reflexivity.
Qed.

(** ** Units *)
Lemma fine_clean : forall s, xml_chars s -> clean s.
Proof. intros s H. eapply Forall_impl; [|exact H]. intros c C. cbn in C. lia. Qed.
Lemma name_clean : forall s, Forall name_byte s -> clean s.
Proof. intros s H. eapply Forall_impl; [|exact H]. intros c C. unfold name_byte in C. lia. Qed.
Lemma attrs_clean : forall l, Forall (fun p => qname (fst p) /\ declares (fst p) = None /\ xml_chars (snd p)) l -> clean (attrs l).
Proof.
  induction l as [|(n, v) l IH]; intros F; [constructor|]. destruct (Forall_inv F) as ((_ & Q) & _ & C). cbn [fst snd] in *.
  change (attrs ((n, v) :: l)) with (attr (n, v) ++ attrs l). apply Forall_app. split; [|apply IH, (Forall_inv_tail F)].
  unfold attr. cbn [fst snd].
  repeat (apply Forall_app; split); try (repeat constructor; discriminate).
  - apply name_clean, Q.
  - apply clean_esc_attr, fine_clean, C.
Qed.
Lemma fine_good : forall al, Forall (fun p => qname (fst p) /\ declares (fst p) = None /\ xml_chars (snd p)) al ->
  Forall (fun a : bytes * bytes => fst a <> [] /\ clean (fst a) /\ clean (snd a)) al.
Proof. intros al H. eapply Forall_impl; [|exact H]. intros p ((A & B) & _ & C). split; [exact A|]. split; [apply name_clean, B|apply fine_clean, C]. Qed.
Lemma shows_good : forall ts s, shows ts s -> Forall good_tree ts.
Proof.
  induction 1 as [|x ts r F H IH|c ts r L H IH|i n al ts r Nn En Ne Fa H IH|i n al pl kids k ts r Nn En Ne Fa HK IHK H IH]; constructor; try assumption.
  - cbn. eapply Forall_impl; [|exact F]. intros c C. cbn in C. lia.
  - destruct (control_value_fine c L) as (F & _). cbn [good_tree]. split; [discriminate|]. split; [repeat constructor; discriminate|]. apply fine_good, F.
  - destruct Nn as ((A & B) & _), Fa as (F & _). cbn [good_tree]. split; [exact A|]. split; [apply name_clean, B|]. apply fine_good, F.
  - destruct Nn as ((A & B) & _), Fa as (F & _). apply Forall_app in F as (F1 & F2). cbn [good_tree]. split; [exact A|]. split; [apply name_clean, B|]. split; [apply fine_good, F1|].
    split; [apply attrs_clean, F2|]. clear -IHK. induction kids as [|t kids IH]; [exact Logic.I|]. split; [exact (Forall_inv IHK)|apply IH, (Forall_inv_tail IHK)].
Qed.
Lemma fine_again : forall a u v lang encoding hash l, fine_unit a (parse_end a u lang encoding hash) ->
  same_settings (parse_end a u lang encoding hash) v -> uo_namespaces v = Some l ->
  same_names l (merge default_namespaces (unit_namespaces a (parse_start a u lang encoding))) -> fine_unit a v.
Proof.
  intros a u v lang encoding hash l (NS & ND & AL & RV & UR & ST & TS & NDA & AT) (S1 & S2 & S3 & S4 & S5 & S6) NL LN.
  assert (N2 : same_names (so_ns (unit_out a v)) (so_ns (unit_out a (parse_end a u lang encoding hash)))).
  { rewrite !unit_out_ns. unfold unit_namespaces at 1. rewrite NL. apply merged_again. exact LN. }
  unfold fine_unit. rewrite S2, S3, S4, S5.
  assert (PE : map ns_prefix (so_ns (unit_out a v)) = map ns_prefix (so_ns (unit_out a (parse_end a u lang encoding hash)))).
  { unfold same_names in N2. apply (f_equal (map fst)) in N2. rewrite !map_map in N2. exact N2. }
  split; [|split; [rewrite PE; exact ND|repeat (split; try assumption)]].
  set (P := fun q : bytes * bytes => (fst q = [] \/ ncname (fst q) /\ plain_start (fst q) /\ fst q <> txt "xmlns" /\ fst q <> txt "xml") /\ snd q <> [] /\ xml_chars (snd q)).
  assert (X : Forall P (map (fun n => (ns_prefix n, ns_uri n)) (so_ns (unit_out a v)))).
  { unfold same_names in N2. rewrite N2. apply Forall_map. exact NS. }
  exact (proj1 (Forall_map _ _ _) X).
Qed.
Lemma prefix_fine_name : forall a u i, fine_unit a u -> prefix_name (prefix_of a u i).
Proof.
  intros a u i (NS & _). unfold prefix_of, prefix_at. destruct (nth_error (so_ns (unit_out a u)) i) as [n|] eqn:E; [|left; reflexivity].
  pose proof (proj1 (Forall_forall _ _) NS n (nth_error_In _ _ E)) as ([P|(P1 & P2 & _)] & _); [left; exact P|right; auto].
Qed.
(** the document of a unit with content that shows [s] *)
Lemma unit_document : forall a u pre ts s, usable a u -> fine_unit a u -> shows ts s ->
  (forall i, any_uses i ts -> prefix_name (pre i)) -> pre 0%nat = prefix_of a u 0 ->
  exists ev, xml_document (unit_xml (unit_tag a u) (unit_element a u) (forest_content pre ts)) ev /\ extract_src ev = Ok s.
Proof.
  intros a u pre ts s U FU SH PN P0. destruct (tag_attrs_ok a u FU) as (TF & TD).
  set (L := tag_attrs (unit_out a u) (start_args a u (uo_revision u))) in *.
  pose proof (unit_first_declares a u U) as FD. fold L in FD. destruct L as [|d L'] eqn:EL; [discriminate FD|]. cbn [hd_error] in FD. injection FD as FD.
  destruct (prefixed_ns (prefix_of a u 0) (txt "unit")) as (Q & E & NN); [apply prefix_fine_name, FU|name_ok|split; discriminate|].
  assert (T : xml_tag (unit_tag a u) (unit_element a u) (d :: L')).
  { rewrite <- EL in *. exists (attrs L). split; [reflexivity|]. split; [exact Q|]. apply attrs_read; assumption. }
  change (prefixed (prefix_of a u 0) (txt "unit")) with (unit_element a u) in *.
  assert (LK : forall sc, lookup_ns (prefix_opt (prefix_of a u 0)) (sax_namespaces (d :: L') ++ sc) = Some SRC_URI).
  { intros sc. destruct d as (dn, dv). unfold declaration in FD. injection FD as FD1 FD2. subst dv. cbn [sax_namespaces].
    assert (DC : declares dn = Some (prefix_opt (prefix_of a u 0))).
    { rewrite FD1. destruct (prefix_of a u 0) as [|c p]; [reflexivity|]. apply declares_prefix. discriminate. }
    rewrite DC. cbn [app lookup_ns]. assert (SP : same_prefix (prefix_opt (prefix_of a u 0)) (prefix_opt (prefix_of a u 0)) = true).
    { unfold same_prefix. destruct (prefix_opt (prefix_of a u 0)) as [p|]; [|reflexivity]. destruct (bytes_dec p p); [reflexivity|contradiction]. }
    rewrite SP. reflexivity. }
  destruct ts as [|t0 ts'].
  - inversion SH; subst s. eexists. split.
    + exists (unit_tag a u), (unit_element a u), (prefix_opt (prefix_of a u 0)), (txt "unit"), (d :: L'). repeat (split; [assumption|]). right. split; reflexivity.
    + unfold extract_src. rewrite not_escape by discriminate. reflexivity.
  - set (ts := t0 :: ts') in *.
    destruct (forest_reads ts s SH pre (unit_element a u) (sax_namespaces (d :: L')) [] (txt "</" ++ unit_element a u ++ [62] ++ []) [XEnd] PN) as (l' & R & X).
    { rewrite P0. rewrite <- (app_nil_r (sax_namespaces (d :: L'))). apply LK. }
    { apply rd_end. constructor. }
    eexists. split.
    + exists (unit_tag a u), (unit_element a u), (prefix_opt (prefix_of a u 0)), (txt "unit"), (d :: L'). repeat (split; [assumption|]). left.
      eexists _, l'. split; [|split; [exact R|reflexivity]]. cbn [forest_content unit_xml]. reflexivity.
    + unfold extract_src. rewrite not_escape by discriminate. rewrite X. reflexivity.
Qed.

Lemma source_kept : forall extract a u lang encoding hash ts s,
  usable a (parse_start a (wu u) lang encoding) -> clean_opt hash -> fine_unit a (parse_end a (wu u) lang encoding hash) -> shows ts s ->
  exists v, parse_unit extract a u lang encoding hash (flat_map tokens_of ts) = Ok (ST_OK, v) /\
    (exists ev, xml_document (uo_srcml (wu v)) ev /\ extract_src ev = Ok s) /\
    (uo_src (wu u) = None -> (forall ev, xml_document (uo_srcml (wu v)) ev -> extract_src ev = Ok (extract (uo_srcml (wu v)))) ->
     uo_src (wu v) = Some s /\ uo_loc (wu v) = Z.of_nat (loc_written s)).
Proof.
  intros extract a u lang encoding hash ts s U H FU SH.
  destruct (parse_ok_all extract a u lang encoding hash ts U H (shows_good _ _ SH)) as (v & E & DOC & _ & _ & _ & SS & UV & (l & NL & GR & _) & _ & _ & SRC & LOC).
  exists v. split; [exact E|].
  assert (FV : fine_unit a (wu v)) by (eapply fine_again; [exact FU|exact SS|exact NL|apply grows_names, GR]).
  assert (X : exists ev, xml_document (uo_srcml (wu v)) ev /\ extract_src ev = Ok s).
  { rewrite DOC. apply unit_document; [exact UV|exact FV|exact SH| |].
    - intros i _. exact (prefix_fine_name a (parse_end a (wu u) lang encoding hash) i FU).
    - unfold prefix_of. rewrite !unit_out_ns. unfold unit_namespaces at 2. rewrite NL. symmetry. apply prefix_again; [apply grows_names, GR|lia]. }
  split; [exact X|]. intros S0 EX. destruct X as (ev & D & EV). specialize (EX ev D). rewrite EV in EX. injection EX as EX.
  rewrite S0, <- EX in SRC, LOC. split; assumption.
Qed.
