(** The document srcml() writes. *)
From Verif Require Import Base Text_Model Text_Spec Text_Proofs Api_Model Api_Spec Api_Proofs Api_Proofs2 Api_Proofs3 Writer_Model Writer_Spec Writer_Proofs3 Writer_Proofs8 Writer_Proofs10 Archive_Model Archive_Spec Archive_Proofs2 Archive_Proofs4
  Root_Model Root_Spec Root_Proofs5 Source_Model Source_Spec Source_Proofs4 Source_Examples Whole_Spec Whole_Examples Reuse_Model Create_Model Global_Model Global_Spec Global_Settings Global_Direction Global_Source Global_Parsed Global_Same.
From Verif Require Properties_Api.
Local Open Scope N_scope.

Definition registry_of (h : list gcall) : registry := standard_extensions ++ flat_map ext_entry (flat_map archive_call h).
Lemma lone_outfit : forall h rs g, grun initial h = Ok (rs, g) -> lone_archive g = outfit (settings_of h) (registry_of h) (latest instruction_set h).
Proof.
  intros h rs g G. rewrite (global_archive_is _ _ _ G). unfold lone_archive. cbn [g_archive]. rewrite step_outfit by (intros (? & ? & E); discriminate E). cbn [snd ext_entry]. rewrite app_nil_r.
  unfold settings_of. rewrite run_app. reflexivity.
Qed.
Lemma settings_facts : forall h, Forall ordinary h -> lone_facts h (settings_of h).
Proof.
  intros h F. destruct (setters_defined h) as (rs & g & G).
  { apply (Forall_impl _ (P := ordinary)); [|exact F]. intros []; cbn; auto. intros []. }
  pose proof (lone_ok h rs g G F) as L. rewrite (lone_outfit _ _ _ G), (no_instruction h F) in L. destruct L as [L1 L2 L3 L4 L5 L6 L7 L8 L9 L10].
  constructor; try assumption.
  - pose proof (calm_run _ archive_create (ordinary_calm h F)) as B. unfold basics in B. injection B as B1 B2 B3 B4 B5 B6 B7. unfold settings_of. rewrite run_app. exact B5.
Qed.
(** the language *)
Lemma decides : forall h u f by_name, u_language u = attr_set ALanguage h -> named_language h f (Some by_name) -> Forall defined h ->
  decide_language u (outfit (settings_of h) (registry_of h) (latest instruction_set h)) (Some f) = Ok (ST_OK, getLanguage (used_language h by_name)).
Proof.
  intros h u f n UL NL D. destruct (setters_defined h D) as (rs & g & G).
  assert (AL : get_attr (Api_Model.run (flat_map archive_call h) archive_create) ALanguage = attr_set ALanguage h).
  { destruct (settings_alike _ _ _ G) as ((A & _) & _). rewrite <- A. eapply attr_is. exact G. }
  set (b := Api_Model.run (flat_map archive_call h) archive_create) in *.
  assert (E : decide_language u (outfit (settings_of h) (registry_of h) (latest instruction_set h)) (Some f) = decide_language u b (Some f)).
  { assert (SL : a_language (settings_of h) = a_language b) by (unfold settings_of; rewrite run_app; reflexivity). unfold decide_language. cbv zeta. change (a_language (outfit (settings_of h) ?r ?p)) with (a_language (settings_of h)). rewrite SL.
    change (a_extensions (outfit _ ?r _)) with r. unfold registry_of. rewrite languages_alike. unfold b. rewrite run_ext. reflexivity. }
  rewrite E. destruct (decide_ok u (flat_map archive_call h) (Some f)) as (D1 & _ & _ & D4). fold b in D1, D4.
  assert (AS : asked u b = attr_set ALanguage h).
  { unfold asked. rewrite AL. unfold uget. rewrite UL. destruct (attr_set ALanguage h); reflexivity. }
  rewrite AS in D1, D4. unfold used_language.
  destruct (attr_set ALanguage h) as [l|].
  - destruct (in_dec bytes_dec l languages) as [I|NI]; [apply (D1 l eq_refl I)|]. destruct NL as [(ext & X & EL)|(_ & EL)]; [|discriminate EL].
    rewrite (D4 f ext) by (first [exact X|reflexivity|intros l0 E0; injection E0 as <-; exact NI]).
    assert (R : latest (registers ext) (flat_map archive_call h) = language_registered ext h) by (unfold language_registered; apply latest_flat; intros []; cbn; try reflexivity; try (destruct ext0, lang; reflexivity)).
    rewrite R, <- EL. reflexivity.
  - destruct NL as [(ext & X & EL)|(_ & EL)]; [|discriminate EL].
    rewrite (D4 f ext) by (first [exact X|reflexivity|intros l0 E0; discriminate E0]).
    assert (R : latest (registers ext) (flat_map archive_call h) = language_registered ext h) by (unfold language_registered; apply latest_flat; intros []; cbn; try reflexivity; try (destruct ext0, lang; reflexivity)).
    rewrite R, <- EL. reflexivity.
Qed.
Lemma decided_number : forall u a f n, decide_language u a f = Ok (ST_OK, n) -> (n =? 0) = false.
Proof.
  intros u a f n E. unfold decide_language in E. cbv zeta in E. match type of E with obind ?x _ = _ => destruct x as [k|]; [|discriminate E] end. cbn [obind] in E. destruct (k =? 0) eqn:Z; [discriminate E|]. injection E as ->. exact Z.
Qed.
(** the unit *)
Lemma parsed_unit : forall sys h input L src ts s (a := settings_of h) u,
  Forall ordinary h -> xml_chars input -> parses sys h L src ts -> shows ts s -> (getLanguage L =? 0) = false ->
  uo_settings (wu u) = USettings None (attr_set ALanguage h) (or_else (filename_set h) (Some input)) (attr_set AVersion h) (timestamp_set h) None 0 ->
  uo_revision (wu u) = Some VERSION_STRING -> uo_url (wu u) = None -> uo_attributes (wu u) = [] -> uo_namespaces (wu u) = None ->
  exists v c, unit_parse (s_env sys) a u (getLanguage L) (Some src) = Ok (ST_OK, v) /\ parsed_in (extracted (s_env sys)) a (a, wu v, c) ts s /\ as_set sys h input L src (wu v).
Proof.
  intros sys h input L src ts s a u F CI (P1 & P2 & P3 & P4) SH NZ US UR UU UA UN.
  destruct (settings_facts h F) as [L1 L2 L3 L4 L5 L6 L7 L8 L9 L10]. fold a in L1, L2, L3, L4, L5, L6, L7, L8, L9, L10.
  pose proof (L8 SrcEncoding) as AE. pose proof (L8 ALanguage) as AL. pose proof (L8 AUrl) as AU. cbn [get_attr] in AE, AL, AU.
  set (enc := settled (s_env sys) (attr_set SrcEncoding h) src) in *. set (hs := digest (s_env sys) src) in *.
  set (u1 := WUnitObj (set_derived (wu u) (getLanguage L)) (wu_trans u)).
  assert (CF : xml_chars_opt (or_else (filename_set h) (Some input))) by (pose proof (filename_chars h F) as X; destruct (filename_set h); [exact X|exact CI]).
  assert (PO : prefix_at SRC (merge default_namespaces (a_namespaces archive_create)) = []) by (vm_compute; reflexivity).
  assert (U : usable a (parse_start a (wu u1) (getLanguage L) (Some enc))).
  { destruct a_c_usable as (U1 & U2 & U3 & _). split; [exact L6|]. rewrite unit_out_ns in *. unfold clean_unit, unit_namespaces in *. cbn [parse_start set_parse_start u1 wu set_derived uo_namespaces uo_revision uo_url uo_attributes uo_settings u_language u_filename u_version u_timestamp u_hash u_encoding] in *.
    rewrite ?UN, ?US, ?UR, ?UA, ?UU, ?L1, ?AL, ?AU. cbn [u_language u_filename u_version u_timestamp u_hash u_encoding]. split; [exact U2|]. split; [exact U3|]. 
    repeat split; try (apply chars_clean); try exact Logic.I; try (apply attr_chars; exact F); try (apply timestamp_chars; exact F); try exact CF; try exact P2.
    - vm_compute. repeat constructor; discriminate.
    - constructor. }
  assert (FU : fine_unit a (parse_end a (wu u1) (getLanguage L) (Some enc) (Some hs))).
  { destruct a_c_fine as (A & B & C1 & C). unfold fine_unit. rewrite unit_out_ns in *. unfold unit_namespaces in *. cbn [parse_end set_reader_result parse_start set_parse_start u1 wu set_derived uo_namespaces uo_revision uo_url uo_attributes uo_settings u_language u_filename u_version u_timestamp u_hash u_encoding] in *.
    rewrite ?UN, ?US, ?UR, ?UA, ?UU, ?L1, ?AL, ?AU. cbn [u_language u_filename u_version u_timestamp u_hash u_encoding].
    split; [exact A|]. split; [exact B|]. destruct C as (C2 & C3 & C4 & C5 & C6). 
    split; [apply attr_chars; exact F|]. split; [exact C2|]. split; [apply attr_chars; exact F|]. split; [repeat split; try exact CF; try (apply attr_chars; exact F); try (apply timestamp_chars; exact F); try exact P2; exact P3|]. split; [exact L9|].
    split; [constructor|intros n v []]. }
  assert (CH : clean_opt (Some hs)) by (apply chars_clean; exact P3).
  destruct (parsed_good (extracted (s_env sys)) a u1 (getLanguage L) (Some enc) (Some hs) ts U CH (shows_good _ _ SH) L3) as (v & E & GU). exists v. eexists. split; [|split].
  - unfold unit_parse. rewrite NZ. cbv zeta. fold u1. cbn [u1 wu set_derived uo_settings]. rewrite US. cbn [u_encoding u_hash]. rewrite AE. fold u1.
    assert (GD : match attr_set SrcEncoding h with Some x => negb (supported (s_env sys) x) | None => false end = false) by (destruct (attr_set SrcEncoding h) as [x|]; [rewrite (P1 x eq_refl)|]; reflexivity).
    rewrite GD. unfold opt, B_HASH. rewrite L7. fold enc. rewrite P4. exact E.
  - exists u1, (getLanguage L), (Some enc), (Some hs), v. split; [exact UN|]. split; [exact U|]. split; [exact CH|]. split; [exact FU|]. split; [exact SH|]. split; [exact E|]. split; [reflexivity|exact GU].
  - destruct (parse_ok_all (extracted (s_env sys)) a u1 (getLanguage L) (Some enc) (Some hs) ts U CH (shows_good _ _ SH)) as (v' & E' & _ & _ & _ & _ & (S1 & S2 & S3 & S4 & S5 & S6) & _). rewrite E in E'. injection E' as <-.
    unfold as_set. rewrite S2, S4, S6. cbn [set_reader_result set_parse_start u1 wu set_derived uo_settings u_filename u_version u_timestamp u_language u_encoding u_hash uo_url uo_derived]. rewrite US, ?UU, ?AU. cbn [u_filename u_version u_timestamp u_language u_encoding u_hash]. repeat split.
Qed.
(** from source code to srcML *)
Theorem to_srcml_written : forall sys h rs g input output by_name src ts s,
  grun initial h = Ok (rs, g) -> Forall ordinary h -> named_language h input (Some by_name) -> xml_chars input ->
  s_file sys input = Some src -> s_creates sys output = true -> parses sys h (used_language h by_name) src ts -> shows ts s ->
  exists v c, srcml sys g (Some input) (Some output) = Ok (ST_OK, g, Some (solitary_doc (settings_of h) (settings_of h, v, c))) /\
    parsed_in (extracted (s_env sys)) (settings_of h) (settings_of h, v, c) ts s /\ as_set sys h input (used_language h by_name) src v.
Proof.
  intros sys h rs g input output n src ts s G F NL CI SF SC P SH. pose proof (run_defined _ _ _ _ G) as D.
  destruct (direction sys h rs g input output _ G NL) as (DI & _). rewrite DI by discriminate. clear DI. rewrite to_srcml_is. cbv zeta. pose proof (lone_outfit _ _ _ G) as LO.
  pose proof (settings_facts h F) as LF. destruct LF as [L1 L2 L3 L4 L5 L6 L7 L8 L9 L10]. pose proof (L8 ALanguage) as AL. pose proof (L8 AVersion) as AV. cbn [get_attr] in AL, AV.
  set (a := settings_of h) in *. set (u := source_unit g (lone_archive g) input).
  assert (US : uo_settings (wu u) = USettings None (attr_set ALanguage h) (or_else (filename_set h) (Some input)) (attr_set AVersion h) (timestamp_set h) None 0).
  { unfold u, source_unit. cbn [wu with_usettings uo_settings]. rewrite LO. change (a_language (outfit a ?r ?p)) with (a_language a). change (a_version (outfit a ?r ?p)) with (a_version a). rewrite AL, AV, (filename_is _ _ _ G), (timestamp_is _ _ _ G).
    destruct (filename_set h); reflexivity. }
  pose proof (decides h (uo_settings (wu u)) input n ltac:(rewrite US; reflexivity) NL D) as DL.
  destruct (parsed_unit sys h input (used_language h n) src ts s u F CI P SH (decided_number _ _ _ _ DL) US eq_refl eq_refl eq_refl eq_refl) as (v & c & E & PI & AS).
  fold a in DL, E, PI. exists (wu v), c. split; [|split; assumption].
  unfold parse_filename. rewrite SF. replace (decide_language (uo_settings (wu u)) (lone_archive g) (Some input)) with (Ok (ST_OK, getLanguage (used_language h n))) by (rewrite LO; symmetry; exact DL). cbn [obind snd].
  replace (unit_parse (s_env sys) (lone_archive g) u (getLanguage (used_language h n)) (Some src)) with (Ok (ST_OK, v)) by (rewrite LO, uparse_same; symmetry; exact E). cbn [obind fst snd is_ok].
  rewrite SC.
  assert (GU : good_unit (lone_archive g, wu v, c)).
  { destruct PI as (u' & l' & e' & h' & v' & _ & _ & _ & _ & _ & _ & _ & GU). rewrite LO. exact (good_same a _ _ _ _ GU). }
  destruct (finish_unit g (wu v) c GU) as (m & W & FI). rewrite W. cbn [obind fst snd]. rewrite FI. rewrite LO, (no_instruction h F), (doc_same a _ _ _ L5). reflexivity.
Qed.
