(** C58: what srcML writes is XML, and an XML reader finds in it the units, their elements in their namespaces, and the source. *)
From Verif Require Import Base Text_Model Text_Spec Api_Model Api_Spec Writer_Model Writer_Spec Archive_Model Archive_Spec Root_Model Root_Spec Parser_Model Parser_Spec Source_Model Source_Spec Source_Elements Source_Whole
  Declared_Spec Whole_Spec Whole_Archive Whole_Lone Whole_Examples Whole_Refuted.
Local Open Scope N_scope.

(** For every archive with settings XML can carry and all units parsed in it: after the declaration and instruction there is one XML element, and
    read as XML it tells the root with its attributes, the macros, and for each unit in order a blank line and the unit element with its attributes,
    with exactly the elements and characters the parser delivered, from which the source is recovered. [unit_is]: Whole_Spec.v *)
Theorem C58_archive : forall extract a al us tss,
  produced (a, al) -> fine_archive a al -> N.testbit (a_options a) 14 = true -> N.testbit (a_options a) 8 = true -> a_revision_number a = None ->
  Forall2 (fun x p => parsed_in extract a x (fst p) (snd p)) us tss ->
  exists d mu evs, archive_doc a al us = xml_declaration a ++ instruction a ++ d ++ [10] /\
    (prefix_from_uri a SRC_URI = Some [] -> mu = Some SRC_URI) /\ (forall u, mu = Some u <-> In (declaration [] u) (root_attrs a al)) /\
    length evs = length us /\ Forall2 (fun xp e => unit_is a (member_attrs a (snd (fst (fst xp)))) (fst (snd xp)) (snd (snd xp)) e) (combine us tss) evs /\
    xml_document d (XStart (txt "unit") (Some SRC_URI) (sax_attributes (root_attrs a al)) :: macro_events mu a ++
      flat_map (fun e => blank_line ++ e) evs ++ (match us with [] => [] | _ => blank_line end) ++ [XEnd]).
Proof. exact archive_read_as_xml. Qed.
Print Assumptions C58_archive.
(** the document of one unit *)
Theorem C58_unit : forall extract a x ts s, produced (a, []) -> fine_archive a [] -> N.testbit (a_options a) 14 = false -> a_revision_number a = None ->
  parsed_in extract a x ts s ->
  exists d e, solitary_doc a x = xml_declaration a ++ instruction a ++ d ++ [10] /\ xml_document d e /\ unit_is a (lone_attrs a (snd (fst x))) ts s e.
Proof. exact unit_read_as_xml. Qed.
Print Assumptions C58_unit.
(** Such units come from source code: lexed, parsed with any grammar and printed, the unit is one whose text is the source. *)
Theorem C58_from_source : forall extract a u lang encoding hash o rs src cs l s tks, a_revision_number a = None -> uo_namespaces (wu u) = None ->
  usable a (parse_start a (wu u) lang encoding) -> clean_opt hash -> fine_unit a (parse_end a (wu u) lang encoding hash) -> lexed src ->
  pull o rs cs (construct src) = (l, AtEof, s) -> (forall f, In f (log s) -> f = Fcomment \/ f = Fouter) ->
  printed (Writer_Spec.prefix_of a (parse_start a (wu u) lang encoding) POS) (outputs l) tks ->
  exists v c ts, parse_unit extract a u lang encoding hash tks = Ok (ST_OK, v) /\ tks = flat_map tokens_of ts /\ parsed_in extract a (a, wu v, c) ts (source src).
Proof. exact from_source. Qed.
Print Assumptions C58_from_source.
(** When the srcML namespace has a prefix, the macros are in no namespace. *)
Theorem C58_macro_namespace_refuted : let a := Api_Model.run [RegisterNamespace (Some (txt "s")) (Some SRC_URI); RegisterMacro (Some (txt "F")) (Some (txt "src:macro"))] archive_create in
  exists d e, archive_doc a [] [] = xml_declaration a ++ instruction a ++ d ++ [10] /\ xml_document d e /\
    In (XStart (txt "macro-list") None [(txt "token", txt "F"); (txt "type", txt "src:macro")]) e.
Proof. exact macro_nowhere. Qed.
Print Assumptions C58_macro_namespace_refuted.
(** A macro, filename or version with a control character: what is written is not XML. *)
Theorem C58_control_character_refuted : let a := Api_Model.run [SetAttr AVersion (Some [1])] archive_create in
  forall d, archive_doc a [] [] = xml_declaration a ++ instruction a ++ d ++ [10] -> forall e, ~ xml_document d e.
Proof. exact control_not_xml. Qed.
Print Assumptions C58_control_character_refuted.
Example C58_example : forall extract, let a := Api_Model.run macro_calls archive_create in let b := Api_Model.run lone_calls archive_create in
  (produced (a, []) /\ fine_archive a [] /\ N.testbit (a_options a) 14 = true /\ N.testbit (a_options a) 8 = true /\ a_revision_number a = None /\
   exists v c, parsed_in extract a (a, wu v, c) small [97; 60; 98; 12; 10]) /\
  (produced (b, []) /\ fine_archive b [] /\ N.testbit (a_options b) 14 = false /\ a_revision_number b = None /\
   exists v c, parsed_in extract b (b, wu v, c) small [97; 60; 98; 12; 10]).
Proof.
  intros extract. cbv zeta. split.
  - split; [apply produced_run|]. split; [exact macro_fine|]. split; [vm_compute; reflexivity|]. split; [vm_compute; reflexivity|]. split; [vm_compute; reflexivity|]. apply small_parsed; vm_compute; reflexivity.
  - split; [apply produced_run|]. split; [exact lone_fine|]. split; [vm_compute; reflexivity|]. split; [vm_compute; reflexivity|]. apply small_parsed; vm_compute; reflexivity.
Qed.
