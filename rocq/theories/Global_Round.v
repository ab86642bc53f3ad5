(** srcml() from srcML to source code, and back and forth. *)
From Verif Require Import Base Text_Model Text_Spec Text_Proofs Api_Model Api_Spec Api_Proofs Api_Proofs2 Api_Proofs3 Writer_Model Writer_Spec Archive_Model Archive_Spec Archive_Proofs2
  Root_Model Root_Spec Root_Proofs5 Source_Model Source_Spec Source_Examples Root_Proofs8 Whole_Spec Whole_Examples Handoff_Model Handoff_Spec Sax_Model Sax_Spec Back_Spec Back_Solo Back_Examples Reuse_Model Create_Model
  Global_Model Global_Spec Global_Settings Global_Direction Global_Source Global_Parsed Global_Same Global_Written.
From Verif Require Properties_Text.
Local Open Scope N_scope.

Theorem source_written : forall sys h rs g input output,
  grun initial h = Ok (rs, g) -> named_language h input None -> ~ same_letters input (txt "srcml") -> srcml_name input \/ attr_set ALanguage h = Some (txt "xml") ->
  srcml sys g (Some input) (Some output) = Ok
    match s_reader sys input with
    | None => (ST_IO_ERROR, g, None)
    | Some (Handoff_Model.RUnit _ (Some b)) =>
        if s_creates sys output then (ST_OK, g, Some (s_encode sys (match attr_set SrcEncoding h with Some e => e | None => txt "ISO-8859-1" end) (b_src b))) else (ST_IO_ERROR, g, None)
    | Some _ => (ST_OK, g, None)
    end.
Proof.
  intros sys h rs g input output G NL NS D. destruct (direction sys h rs g input output None G NL) as (_ & DI). destruct (DI eq_refl NS) as (DS & _). rewrite (DS D). clear DI DS. f_equal. unfold to_source.
  destruct (s_reader sys input) as [[x [b|]| | ]|]; try reflexivity. unfold unparse_filename. destruct (s_creates sys output); [|reflexivity].
  pose proof (attr_is SrcEncoding _ _ _ G) as AE. cbn [get_attr] in AE. rewrite AE. cbv zeta. cbn [unit_create u_eol]. rewrite Properties_Text.C19_auto_unchanged. reflexivity.
Qed.
Theorem unknown_name : forall sys h rs g input output,
  grun initial h = Ok (rs, g) -> named_language h input None -> ~ same_letters input (txt "srcml") -> ~ srcml_name input -> attr_set ALanguage h <> Some (txt "xml") ->
  srcml sys g (Some input) (Some output) =
  Ok (ST_INVALID_INPUT, Globals (g_archive g) (g_unit g) (match attr_set ALanguage h with Some l => txt "Language '" ++ l ++ txt "' is not supported." | None => txt "No language provided." end), None).
Proof.
  intros sys h rs g input output G NL NS N1 N2. destruct (direction sys h rs g input output None G NL) as (_ & DI). destruct (DI eq_refl NS) as (_ & DU). rewrite (DU N1 N2). unfold unknown.
  pose proof (attr_is ALanguage _ _ _ G) as AE. cbn [get_attr] in AE. rewrite AE. reflexivity.
Qed.
(** a source file that cannot be read *)
Theorem unreadable : forall sys h rs g input output by_name, grun initial h = Ok (rs, g) -> Forall ordinary h -> named_language h input (Some by_name) ->
  s_file sys input = None -> srcml sys g (Some input) (Some output) = Ok (ST_IO_ERROR, g, if s_creates sys output then Some (xml_declaration (settings_of h)) else None).
Proof.
  intros sys h rs g input output n G F NL SF. destruct (direction sys h rs g input output _ G NL) as (DI & _). rewrite DI by discriminate. clear DI. rewrite to_srcml_is. cbv zeta. unfold parse_filename. rewrite SF. cbn [obind fst is_ok snd].
  destruct (s_creates sys output) eqn:SC.
  - rewrite finish_none. pose proof (lone_outfit _ _ _ G) as LO. rewrite (no_instruction h F) in LO. change (a_pi (g_archive g)) with (a_pi (lone_archive g)). rewrite LO. cbn [outfit with_pi a_pi]. unfold instruction. cbn [with_pi a_pi app]. rewrite !app_nil_r. reflexivity.
  - assert (X : exists r, finish g ST_IO_ERROR (ready_am (lone_archive g) false) = Ok r).
    { unfold finish, close. cbn [ready_am am_type am_raw am_trans]. unfold create_trans. cbn [ready_am am_buf obind]. unfold close_trans. cbn [set_trans am_trans].
      match goal with |- context [so_w ?t] => destruct (so_w t) end; cbn [set_trans am_raw obind am_memory ready_am]; eauto. }
    destruct X as (r & X). rewrite X. f_equal. exact (nowhere (ready_am (lone_archive g) false) eq_refl eq_refl eq_refl eq_refl (or_introl eq_refl) _ _ _ X).
Qed.

(** ** Back and forth *)
Lemma settings_fine : forall h, Forall ordinary h -> fine_archive (settings_of h) [].
Proof.
  intros h F. destruct (settings_facts h F) as [L1 L2 L3 L4 L5 L6 L7 L8 L9 L10].
  destruct (fine_ns_new (settings_of h)) as (A & B); [unfold Archive_Spec.root_namespaces; rewrite L1; reflexivity|]. pose proof (L8 AUrl) as AU. pose proof (L8 AVersion) as AV. cbn [get_attr] in AU, AV. constructor; [exact A|exact B| | |].
  - rewrite L4, AU, AV. split; [apply chars_b_ok; vm_compute; reflexivity|]. split; [apply attr_chars; exact F|]. split; [apply attr_chars; exact F|]. exact L9.
  - split; [constructor|intros n v []].
  - rewrite L2. constructor.
Qed.
Lemma settings_cpp : forall h, Forall ordinary h -> cpp_named (settings_of h).
Proof. intros h F. apply cpp_named_new. unfold Archive_Spec.root_namespaces. rewrite (lf_ns _ _ (settings_facts h F)). reflexivity. Qed.
Theorem back_and_forth : forall sys h rs g input file by_name src ts s,
  grun initial h = Ok (rs, g) -> Forall ordinary h -> named_language h input (Some by_name) -> xml_chars input ->
  s_file sys input = Some src -> s_creates sys file = true -> parses sys h (used_language h by_name) src ts -> Source_Spec.shows ts s -> lone_names ts ->
  exists doc, srcml sys g (Some input) (Some file) = Ok (ST_OK, g, Some doc) /\
    (exists r, read_from (xml_declaration (settings_of h)) doc r) /\
    forall sys' h' rs' g' output r, grun initial h' = Ok (rs', g') -> named_language h' file None -> ~ same_letters file (txt "srcml") -> srcml_name file \/ attr_set ALanguage h' = Some (txt "xml") ->
      s_reader sys' file = Some r -> read_from (xml_declaration (settings_of h)) doc r -> s_creates sys' output = true ->
      srcml sys' g' (Some file) (Some output) = Ok (ST_OK, g', Some (s_encode sys' (match attr_set SrcEncoding h' with Some e => e | None => txt "ISO-8859-1" end) s)).
Proof.
  intros sys h rs g input file n src ts s G F NL CI SF SC P SH LN.
  destruct (to_srcml_written sys h rs g input file n src ts s G F NL CI SF SC P SH) as (v & c & E & PI & AS).
  set (a := settings_of h) in *. assert (PR : produced (a, [])) by apply produced_run. pose proof (settings_fine h F) as FA. pose proof (settings_cpp h F) as CN. destruct (settings_facts h F) as [L1 L2 L3 L4 L5 L6 L7 L8 L9 L10]. fold a in FA, CN, L3, L5, L10.
  exists (solitary_doc a (a, v, c)). split; [exact E|].
  assert (RB : forall d evs err ls st, solitary_doc a (a, v, c) = xml_declaration a ++ d ++ [10] -> reported [] d evs -> calm ls -> steps sax ls (open (parse evs err) [Read]) = Some st ->
    (cl st = CGone \/ exists l s', (l = Caller \/ l = Parser) /\ step sax l st = Some s') /\ (length ls <= 43)%nat /\
    (cl st = CGone -> exists r, read_back a v s r /\ results st = [Handoff_Model.RUnit (Some (fst r)) (Some (snd r))])).
  { intros d evs err ls st DD RP CA ST. destruct (unit_read_back (extracted (s_env sys)) a (a, v, c) ts s d evs err [Read] ls st PR FA L10 L3 L5 CN LN PI DD RP CA ST) as (R1 & R2 & R3).
    split; [exact R1|]. split; [exact R2|]. intros CG. destruct (R3 CG) as (r & B & RS). exists r. split; [exact B|exact RS]. }
  split.
  - destruct (something_reported_lone (extracted (s_env sys)) a (a, v, c) ts s PR FA L3 PI) as (d & evs & DD & RP). unfold instruction in DD, RP. rewrite L5 in DD, RP. cbn [app] in DD.
    destruct (finishes sax (open (parse evs false) [Read]) 43) as (ls & st & CA & ST & CG).
    { intros ls st CA ST. destruct (RB d evs false ls st DD RP CA ST) as (R1 & R2 & _). split; [exact R1|exact R2]. }
    destruct (RB d evs false ls st DD RP CA ST) as (_ & _ & R3). destruct (R3 CG) as (r & _ & RS). eexists. exists d, evs, false, ls, st. split; [exact DD|]. split; [exact RP|]. split; [exact CA|]. split; [exact ST|]. split; [exact CG|exact RS].
  - intros sys' h' rs' g' output r G' NL' NS' D' SR (d & evs & err & ls & st & DD & RP & CA & ST & CG & RS) SC'.
    destruct (RB d evs err ls st DD RP CA ST) as (_ & _ & R3). destruct (R3 CG) as (q & B & RS'). rewrite RS in RS'. injection RS' as ->.
    rewrite (source_written sys' h' rs' g' file output G' NL' NS' D'), SR, SC'. destruct B as (_ & BS & _). rewrite BS. reflexivity.
Qed.
