(** C23, C24, C36 and C34 at the level of archives: theorems. Vocabulary: Archive_Spec.v, Writer_Spec.v; program: Archive_Model.v. *)
From Verif Require Import Base Text_Model Text_Spec Api_Model Writer_Model Writer_Spec Writer_Proofs10 Archive_Model Archive_Spec Archive_Proofs2 Archive_Proofs3 Archive_Proofs4.
Local Open Scope N_scope.

(** ** C23: the document *)
(** After any history in which nothing was written, opening an archive and writing units (with any other calls that write nothing in
    between) and closing it delivers one document: the declaration, the instruction, and one root element with the macros and
    the units in call order, each after a blank line. The settings are those at the first unit. *)
Theorem C23_document : forall h q (memory : bool) cs us,
  unwritten IO_INVALID h -> Forall quiet q -> (memory = false -> Forall not_memory h) -> writing cs us -> Forall good_unit us ->
  exists rs m qs m', arun new_am (h ++ (if memory then OpenMemory true else OpenOutput true true) :: q) = Ok (rs, m) /\
    arun m (cs ++ [Close]) = Ok (qs ++ [RVoid], m') /\ Forall2 accepted cs qs /\ am_type m' = IO_INVALID /\
    let a := am_a m in
    delivered m m' memory
      (if is_archive a then archive_doc a (am_attributes m) us
       else xml_declaration a ++ instruction a ++ solitary_all a us ++ match us, a_pi a with [], None => [] | _, _ => [10] end).
Proof. exact documents. Qed.
Print Assumptions C23_document.
(** the settings are those of the setting calls, unless the archive was also read *)
Theorem C23_settings : forall cs m rs m', arun m cs = Ok (rs, m') -> Forall no_input cs -> am_a m' = run (settings cs) (am_a m) /\ am_attributes m' = am_attributes m.
Proof. exact settings_ok. Qed.
Print Assumptions C23_settings.
(** one unit in a solitary archive: the unit is the root *)
Theorem C23_solitary_partial : forall a x, xml_declaration a ++ instruction a ++ solitary_all a [x] ++ match [x], a_pi a with [], None => [] | _, _ => [10] end = solitary_doc a x.
Proof. intros a x. unfold solitary_doc, solitary_all. cbn [flat_map]. rewrite app_nil_r. destruct (a_pi a); reflexivity. Qed.
Print Assumptions C23_solitary_partial.
(** every parsed unit can be written *)
Theorem C23_parsed_units : forall extract a u lang encoding hash ts,
  usable a (parse_start a (wu u) lang encoding) -> clean_opt hash -> Forall good_tree ts -> a_revision_number a = None ->
  exists v, parse_unit extract a u lang encoding hash (flat_map tokens_of ts) = Ok (ST_OK, v) /\
    good_unit (a, wu v, nonempty (flat_map (tree_xml (prefix_of a (parse_start a (wu u) lang encoding))) ts)).
Proof. exact parsed_good. Qed.
Print Assumptions C23_parsed_units.
(** strings written directly are delivered as they are *)
Theorem C23_strings : forall m s ss id memory, opened m id memory ->
  exists m', arun m (map raw (s :: ss) ++ [Close]) = Ok (oks (S (length ss)) ++ [RVoid], m') /\ delivered m m' memory (concat (s :: ss)).
Proof. exact raw_document. Qed.
Print Assumptions C23_strings.
(** two units in a solitary archive: two document elements; none: no document element *)
Theorem C23_solitary_refuted :
  user_of (arun new_am [Setting EnableSolitary; OpenMemory true; sample_call; sample_call; Close]) =
    Some ([ok; ok; ok; ok; RVoid], Some (Some (decl_line ++ solitary_unit ++ solitary_unit ++ [10]))) /\
  user_of (arun new_am [Setting EnableSolitary; OpenMemory true; Close]) = Some ([ok; ok; RVoid], Some (Some decl_line)).
Proof. exact (conj solitary_two solitary_none). Qed.
Print Assumptions C23_solitary_refuted.
Example C23_example :
  unwritten IO_INVALID [Setting EnableSolitary; OpenRead true (Some (archive_create, [], [sample])); ReadUnit; Close] /\
  writing [sample_call; Setting (SetTabstop 4); sample_call] [(archive_create, sample, Some (txt "<decl>a&lt;b</decl>")); (archive_create, sample, Some (txt "<decl>a&lt;b</decl>"))] /\
  good_unit (archive_create, sample, Some (txt "<decl>a&lt;b</decl>")) /\
  archive_doc archive_create [] [(archive_create, sample, Some (txt "<decl>a&lt;b</decl>"))] =
    decl_line ++ root ++ [10; 10] ++ txt "<unit revision=""1.0.0"" language=""C"" filename=""a.c""><decl>a&lt;b</decl></unit>" ++ [10; 10] ++ txt "</unit>" ++ [10].
Proof.
  split; [cbn; repeat split; discriminate|]. split; [repeat constructor|]. split; [exact sample_good|]. vm_compute. reflexivity.
Qed.

(** ** C24: what is allowed when *)
(** the mode is that of the last opening or closing *)
Theorem C24_mode : forall cs m rs m', arun m cs = Ok (rs, m') -> am_type m' = mode_after (am_type m) cs.
Proof. exact mode_ok. Qed.
Print Assumptions C24_mode.
Theorem C24_write_refused : forall h m rs, arun new_am h = Ok (rs, m) ->
  (astep m (WriteUnit None) = Ok (RStatus ST_INVALID_ARGUMENT, m)) /\
  (forall ua u, uo_read_body u = false -> astep m (WriteUnit (Some (ua, u))) = Ok (RStatus ST_UNINITIALIZED_UNIT, m)) /\
  (forall ua u, uo_read_body u = true -> mode_after IO_INVALID h <> IO_WRITE -> astep m (WriteUnit (Some (ua, u))) = Ok (RStatus ST_INVALID_IO_OPERATION, m)).
Proof. exact write_refused. Qed.
Print Assumptions C24_write_refused.
Theorem C24_read_refused : forall h m rs, arun new_am h = Ok (rs, m) -> mode_after IO_INVALID h <> IO_READ ->
  astep m ReadUnit = Ok (RUnit None, m) /\ astep m SkipUnit = Ok (RInt 0, m).
Proof. exact read_refused. Qed.
Print Assumptions C24_read_refused.
(** while open for reading: the units in order, each skip passing over one, then nothing *)
Theorem C24_read_in_order : forall h m rs a al us cs, arun new_am h = Ok (rs, m) -> Forall reading cs ->
  exists qs m', arun m (OpenRead true (Some (a, al, us)) :: cs) = Ok (RStatus ST_OK :: qs, m') /\ filter is_read qs = read_results us cs.
Proof. exact reading_opened. Qed.
Print Assumptions C24_read_in_order.
(** writing a string to an archive that is not open is accepted, and takes effect later *)
Theorem C24_string_unopened_refuted :
  user_of (arun new_am [OpenMemory true; Close]) =
    Some ([ok; RVoid], Some (Some (decl_line ++ txt "<unit xmlns=""http://www.srcML.org/srcML/src"" revision=""1.0.0""/>" ++ [10]))) /\
  user_of (arun new_am [raw (txt "x"); OpenMemory true; Close]) = Some ([ok; ok; RVoid], Some (Some [])).
Proof. exact string_unopened. Qed.
Print Assumptions C24_string_unopened_refuted.
(** a file that could not be created: every call reports success, nothing is written *)
Theorem C24_file_not_created_refuted : files_of (arun new_am [OpenOutput true false; sample_call; Close]) = Some ([ok; ok; RVoid], []).
Proof. exact file_not_created. Qed.
Print Assumptions C24_file_not_created_refuted.
Example C24_example : exists m, arun new_am [OpenMemory true; Close; OpenRead true (Some (archive_create, [], [sample]))] = Ok ([ok; RVoid; ok], m) /\
  mode_after IO_INVALID [OpenMemory true; Close; OpenRead true (Some (archive_create, [], [sample]))] = IO_READ /\
  read_results [sample; sample] [ReadUnit; SkipUnit; ReadUnit] = [RUnit (Some sample); RInt 1; RUnit None].
Proof. eexists. split; [vm_compute; reflexivity|]. split; reflexivity. Qed.

(** ** C36: reopening and closing again. Proved for archives on which nothing was written: C23_document. *)
Theorem C36_reopen_partial : forall h q cs us,
  unwritten IO_INVALID h -> Forall quiet q -> writing cs us -> Forall good_unit us ->
  exists rs m qs m', arun new_am (h ++ OpenMemory true :: q) = Ok (rs, m) /\ arun m (cs ++ [Close]) = Ok (qs ++ [RVoid], m') /\
    (is_archive (am_a m) = true -> am_user m' = Some (Some (archive_doc (am_a m) (am_attributes m) us))).
Proof. exact reopen_memory. Qed.
Print Assumptions C36_reopen_partial.
(** reopened after writing: every call succeeds, nothing is delivered *)
Theorem C36_reopen_refuted : user_of (arun new_am [OpenMemory true; sample_call; Close; OpenMemory true; sample_call; Close]) = Some ([ok; ok; RVoid; ok; ok; RVoid], Some (Some [])).
Proof. exact reopened. Qed.
Print Assumptions C36_reopen_refuted.
(** closing again overwrites the caller's document with a null pointer *)
Theorem C36_close_twice_refuted : user_of (arun new_am [OpenMemory true; sample_call; Close; Close]) = Some ([ok; ok; RVoid; RVoid], Some None).
Proof. exact closed_twice. Qed.
Print Assumptions C36_close_twice_refuted.
(** units and strings on one archive, or a string after closing: a closed output buffer is used *)
Theorem C36_strings_and_units_refuted : arun new_am [OpenMemory true; sample_call; raw (txt "x"); Close] = UB /\ arun new_am [OpenMemory true; sample_call; Close; raw (txt "x")] = UB.
Proof. exact (conj mixed_close string_after_close). Qed.
Print Assumptions C36_strings_and_units_refuted.
Example C36_example : unwritten IO_INVALID [OpenRead true (Some (archive_create, [], [sample])); ReadUnit; sample_call; Close; OpenRead true None; Close].
Proof. cbn. repeat split; try discriminate. left. discriminate. Qed.

(** ** C34 for archives: two ways in which the prefix of an element is not declared *)
(** a prefix chosen for the OpenMP namespace *)
Theorem C34_openmp_prefix_refuted : user_of (arun new_am [Setting (RegisterNamespace (Some (txt "o")) (Some OPENMP_URI)); OpenMemory true;
    WriteUnit (Some (omp_archive, parsed_in omp_archive [TreeElem 4 (txt "directive") [] [] []])); Close]) =
  Some ([ok; ok; ok; RVoid], Some (Some (decl_line ++ root ++ [10; 10] ++
    txt "<unit revision=""1.0.0"" language=""C"" filename=""a.c""><o:directive/></unit>" ++ [10; 10] ++ txt "</unit>" ++ [10]))).
Proof. exact omp_undeclared. Qed.
Print Assumptions C34_openmp_prefix_refuted.
(** a unit of an archive with a prefix for the srcML namespace, written to one without *)
Theorem C34_copied_unit_refuted : user_of (arun new_am [OpenMemory true; WriteUnit (Some (src_archive, parsed_in src_archive [TreeElem 0 (txt "decl") [] [] []])); Close]) =
  Some ([ok; ok; RVoid], Some (Some (decl_line ++ root ++ [10; 10] ++
    txt "<src:unit revision=""1.0.0"" language=""C"" filename=""a.c""><src:decl/></src:unit>" ++ [10; 10] ++ txt "</unit>" ++ [10]))).
Proof. exact copied_undeclared. Qed.
Print Assumptions C34_copied_unit_refuted.
