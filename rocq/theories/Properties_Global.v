(** C60: srcml(), with the global settings: the direction, what is written, and there and back. *)
From Verif Require Import Base Text_Model Text_Spec Api_Model Api_Spec Writer_Model Writer_Spec Archive_Model Archive_Spec Root_Spec Source_Model Source_Spec Whole_Spec Whole_Examples
  Handoff_Model Handoff_Spec Sax_Model Sax_Spec Back_Spec Reuse_Model Create_Model Global_Model Global_Spec Global_Settings Global_Direction Global_Written Global_Round Global_Examples.
Local Open Scope N_scope.

(** The global settings after any calls are those of an archive and a unit on which the same calls were made ([alike], Global_Spec.v); no call is undefined
    but one that sets a null processing instruction. *)
Theorem C60_settings : forall h rs g, grun initial h = Ok (rs, g) ->
  alike (g_archive g) (Api_Model.run (flat_map archive_call h) archive_create) /\ a_pi (g_archive g) = latest instruction_set h /\
  g_unit g = Api_Model.urun (flat_map unit_call h) unit_create /\ g_error g = [].
Proof. exact settings_alike. Qed.
Print Assumptions C60_settings.
Theorem C60_settings_defined : forall h, Forall defined h -> exists rs g, grun initial h = Ok (rs, g).
Proof. exact setters_defined. Qed.
Print Assumptions C60_settings_defined.
(** srcml() changes no settings. *)
Theorem C60_kept : forall sys g i o st g' w, srcml sys g i o = Ok (st, g', w) -> g_archive g' = g_archive g /\ g_unit g' = g_unit g.
Proof. exact kept. Qed.
Print Assumptions C60_kept.

(** A file whose name has a language is source code: after settings XML can carry ([ordinary]) the document with one unit is written that an archive with those
    settings has, with the language, filename, version, timestamp and url set ([as_set]), the elements and the text the parser delivers, and the status is OK.
    Not for settings that are not ordinary; the end of line and the tokens of the parser come from elsewhere (C01, C08). *)
Theorem C60_source_partial : forall sys h rs g input output by_name src ts s,
  grun initial h = Ok (rs, g) -> Forall ordinary h -> named_language h input (Some by_name) -> xml_chars input ->
  s_file sys input = Some src -> s_creates sys output = true -> parses sys h (used_language h by_name) src ts -> Source_Spec.shows ts s ->
  exists v c, srcml sys g (Some input) (Some output) = Ok (ST_OK, g, Some (solitary_doc (settings_of h) (settings_of h, v, c))) /\
    parsed_in (extracted (s_env sys)) (settings_of h) (settings_of h, v, c) ts s /\ as_set sys h input (used_language h by_name) src v.
Proof. exact to_srcml_written. Qed.
Print Assumptions C60_source_partial.
(** If the file cannot be read, that is the status; the output holds an XML declaration then. *)
Theorem C60_unreadable : forall sys h rs g input output by_name, grun initial h = Ok (rs, g) -> Forall ordinary h -> named_language h input (Some by_name) ->
  s_file sys input = None -> srcml sys g (Some input) (Some output) = Ok (ST_IO_ERROR, g, if s_creates sys output then Some (xml_declaration (settings_of h)) else None).
Proof. exact unreadable. Qed.
Print Assumptions C60_unreadable.
(** A file whose name ends in .xml or .srcml in any case, or any file without a language if the language set is xml, is srcML: the source of its first unit is
    written as it is, in the encoding set, or in ISO-8859-1. *)
Theorem C60_srcml : forall sys h rs g input output,
  grun initial h = Ok (rs, g) -> named_language h input None -> ~ same_letters input (txt "srcml") -> srcml_name input \/ attr_set ALanguage h = Some (txt "xml") ->
  srcml sys g (Some input) (Some output) = Ok
    match s_reader sys input with
    | None => (ST_IO_ERROR, g, None)
    | Some (Handoff_Model.RUnit _ (Some b)) =>
        if s_creates sys output then (ST_OK, g, Some (s_encode sys (match attr_set SrcEncoding h with Some e => e | None => txt "ISO-8859-1" end) (b_src b))) else (ST_IO_ERROR, g, None)
    | Some _ => (ST_OK, g, None)
    end.
Proof. exact source_written. Qed.
Print Assumptions C60_srcml.
(** Any other file is refused, with the error, and nothing is written. *)
Theorem C60_refused : forall sys h rs g input output,
  grun initial h = Ok (rs, g) -> named_language h input None -> ~ same_letters input (txt "srcml") -> ~ srcml_name input -> attr_set ALanguage h <> Some (txt "xml") ->
  srcml sys g (Some input) (Some output) =
  Ok (ST_INVALID_INPUT, Globals (g_archive g) (g_unit g) (match attr_set ALanguage h with Some l => txt "Language '" ++ l ++ txt "' is not supported." | None => txt "No language provided." end), None).
Proof. exact unknown_name. Qed.
Print Assumptions C60_refused.

(** There and back: the document srcml() writes of a source, read however libxml2 reports it and the threads run ([read_from]), gives back with any other
    srcml() the text the parser had delivered, in the encoding set there. Not for units whose elements are called unit (C59). *)
Theorem C60_round_trip_partial : forall sys h rs g input file by_name src ts s,
  grun initial h = Ok (rs, g) -> Forall ordinary h -> named_language h input (Some by_name) -> xml_chars input ->
  s_file sys input = Some src -> s_creates sys file = true -> parses sys h (used_language h by_name) src ts -> Source_Spec.shows ts s -> lone_names ts ->
  exists doc, srcml sys g (Some input) (Some file) = Ok (ST_OK, g, Some doc) /\
    (exists r, read_from (xml_declaration (settings_of h)) doc r) /\
    forall sys' h' rs' g' output r, grun initial h' = Ok (rs', g') -> named_language h' file None -> ~ same_letters file (txt "srcml") -> srcml_name file \/ attr_set ALanguage h' = Some (txt "xml") ->
      s_reader sys' file = Some r -> read_from (xml_declaration (settings_of h)) doc r -> s_creates sys' output = true ->
      srcml sys' g' (Some file) (Some output) = Ok (ST_OK, g', Some (s_encode sys' (match attr_set SrcEncoding h' with Some e => e | None => txt "ISO-8859-1" end) s)).
Proof. exact back_and_forth. Qed.
Print Assumptions C60_round_trip_partial.

(** What a user expects and does not get. The end of line set is ignored; *)
Theorem C60_eol_refuted : exists rs g, grun initial [GEol 3] = Ok (rs, g) /\ u_eol (g_unit g) = 3 /\ srcml (world true) g (Some (txt "a.xml")) (Some (txt "a.c")) = Ok (ST_OK, g, Some [97; 10]).
Proof. exact eol_ignored. Qed.
Print Assumptions C60_eol_refuted.
(** a language set does not help a file whose name has none; *)
Theorem C60_language_refuted : exists rs g e, grun initial [GAttr ALanguage (Some (txt "C"))] = Ok (rs, g) /\ In (txt "C") languages /\
  srcml (world true) g (Some (txt "a.txt")) (Some (txt "a.xml")) = Ok (ST_INVALID_INPUT, Globals (g_archive g) (g_unit g) e, None) /\ e = txt "Language 'C' is not supported.".
Proof. exact language_ignored. Qed.
Print Assumptions C60_language_refuted.
(** the status is OK although the output cannot be created, *)
Theorem C60_not_created_refuted : exists rs g, grun initial [] = Ok (rs, g) /\ s_creates (world false) (txt "a.xml") = false /\
  srcml (world false) g (Some (txt "a.c")) (Some (txt "a.xml")) = Ok (ST_OK, g, None).
Proof. exact nothing_created. Qed.
Print Assumptions C60_not_created_refuted.
(** or although there is no unit; *)
Theorem C60_no_unit_refuted : exists sys, s_reader sys (txt "a.xml") = Some RNull /\ s_creates sys (txt "a.c") = true /\
  srcml sys initial (Some (txt "a.xml")) (Some (txt "a.c")) = Ok (ST_OK, initial, None).
Proof. exact nothing_read. Qed.
Print Assumptions C60_no_unit_refuted.
(** a name is read before its beginning; *)
Theorem C60_name_refuted : forall sys h rs g output, grun initial h = Ok (rs, g) -> srcml sys g (Some (txt "srcml")) (Some output) = UB.
Proof. exact outside_name. Qed.
Print Assumptions C60_name_refuted.
(** and the output is overwritten although the input cannot be read. *)
Theorem C60_overwritten_refuted : exists w, s_file (world true) (txt "b.c") = None /\ srcml (world true) initial (Some (txt "b.c")) (Some (txt "a.xml")) = Ok (ST_IO_ERROR, initial, Some w) /\ w <> [].
Proof. exact overwritten. Qed.
Print Assumptions C60_overwritten_refuted.

(** settings and a file for which all of this applies *)
Example C60_example : exists rs g, grun initial settings = Ok (rs, g) /\ Forall ordinary settings /\ named_language settings (txt "a.c") (Some (txt "C")) /\ used_language settings (txt "C") = txt "C++" /\
  s_file (world true) (txt "a.c") = Some [97; 60; 98; 12; 10] /\ s_creates (world true) (txt "a.xml") = true /\ parses (world true) settings (txt "C++") [97; 60; 98; 12; 10] small /\
  Source_Spec.shows small [97; 60; 98; 12; 10] /\ lone_names small /\ named_language [] (txt "a.xml") None /\ srcml_name (txt "a.xml").
Proof.
  eexists _, _. split; [vm_compute; reflexivity|]. split; [exact settings_ordinary|]. split; [exact named_c|]. split; [vm_compute; reflexivity|]. split; [vm_compute; reflexivity|]. split; [reflexivity|]. split; [exact (world_parses true)|].
  split; [exact small_shows|]. split; [exact small_names|]. split; [apply named_xml; left; reflexivity|]. exists (txt "a"), (txt "xml"). split; [reflexivity|]. left. split; [|discriminate]. repeat (constructor; [left; reflexivity|]). constructor.
Qed.
Example C60_names : srcml_name (txt "B.XML") /\ srcml_name (txt "dir/B.SrcMl") /\ ~ srcml_name (txt "a.txt") /\ ~ srcml_name (txt ".xml").
Proof.
  assert (N : forall s b, xml_name s = Ok b -> ~ same_letters s (txt "srcml") -> b = true <-> srcml_name s) by (intros s b E L; destruct (name_ok s L) as (b' & E' & H); rewrite E in E'; injection E' as ->; exact H).
  assert (L : forall s, length s <> 5%nat -> ~ same_letters s (txt "srcml")).
  { intros s K F. apply K. unfold same_letters in F. clear K N. change 5%nat with (length (txt "srcml")). induction F; [reflexivity|cbn; congruence]. }
  assert (NS : ~ same_letters (txt "B.XML") (txt "srcml")) by (intros F; inversion F as [|? ? ? ? [D|(_ & D)]]; subst; vm_compute in D; discriminate D).
  assert (NT : ~ same_letters (txt "a.txt") (txt "srcml")) by (intros F; inversion F as [|? ? ? ? [D|(_ & D)]]; subst; vm_compute in D; discriminate D).
  split; [|split; [|split]].
  - apply (N _ true); [vm_compute; reflexivity|exact NS|reflexivity].
  - apply (N _ true); [vm_compute; reflexivity|apply L; vm_compute; discriminate|reflexivity].
  - intros S. assert (X : false = true); [|discriminate X]. apply (N (txt "a.txt") false); [vm_compute; reflexivity|exact NT|exact S].
  - intros S. assert (X : false = true); [|discriminate X]. apply (N (txt ".xml") false); [vm_compute; reflexivity|apply L; vm_compute; discriminate|exact S].
Qed.
