(** C59: what libsrcml writes, libsrcml reads back: the units in their order, with their attributes, source and srcML. *)
From Verif Require Import Base Text_Model Text_Spec Api_Model Api_Spec Writer_Model Writer_Spec Archive_Model Archive_Spec Root_Model Root_Spec Source_Model Source_Spec Declared_Spec Whole_Spec Whole_Examples
  Handoff_Model Handoff_Spec Sax_Model Sax_Spec Stream_Spec Sax_Proofs7 Back_Spec Back_Archive Back_Solo Back_Exists Back_Examples.
Local Open Scope N_scope.

(** The document of any archive is written, libxml2 reports it in any way it may ([reported]), and the archive is read by any sequence of reads and skips,
    with the two threads in any order: somebody can go on until it is over, which is within a bound, and then each read has got the next unit
    with the attributes, source and inner srcML it was written with ([read_back], Back_Spec.v; [reads], Handoff_Spec.v). *)
Theorem C59_archive_partial : forall extract a al us tss d evs err ops ls s,
  produced (a, al) -> fine_archive a al -> N.testbit (a_options a) 14 = true -> N.testbit (a_options a) 8 = true -> a_revision_number a = None -> cpp_named a ->
  Forall2 (fun x p => parsed_in extract a x (fst p) (snd p)) us tss -> us <> [] ->
  Archive_Spec.archive_doc a al us = xml_declaration a ++ instruction a ++ d ++ [10] -> reported (instruction a) d evs ->
  calm ls -> steps sax ls (open (parse evs err) ops) = Some s ->
  (cl s = CGone \/ exists l s', (l = Caller \/ l = Parser) /\ step sax l s = Some s') /\ (length ls <= 12 * length ops + 8 * length us + 30)%nat /\
  (cl s = CGone -> exists rs, Forall2 (fun xp r => read_back a (snd (fst (fst xp))) (snd (snd xp)) r) (combine us tss) rs /\
    results s = Handoff_Spec.reads (map (fun r => (fst r, Some (snd r))) rs) ops).
Proof. exact archive_read_back. Qed.
Print Assumptions C59_archive_partial.
(** The same for a document that is one unit, without a processing instruction. *)
Theorem C59_unit_partial : forall extract a x ts src d evs err ops ls s,
  produced (a, []) -> fine_archive a [] -> N.testbit (a_options a) 14 = false -> a_revision_number a = None -> a_pi a = None -> cpp_named a -> lone_names ts ->
  parsed_in extract a x ts src -> solitary_doc a x = xml_declaration a ++ d ++ [10] -> reported [] d evs ->
  calm ls -> steps sax ls (open (parse evs err) ops) = Some s ->
  (cl s = CGone \/ exists l s', (l = Caller \/ l = Parser) /\ step sax l s = Some s') /\ (length ls <= 12 * length ops + 31)%nat /\
  (cl s = CGone -> exists r, read_back a (snd (fst x)) src r /\ results s = Handoff_Spec.reads [(fst r, Some (snd r))] ops).
Proof. exact unit_read_back. Qed.
Print Assumptions C59_unit_partial.
(** There is a report of every such document. *)
Theorem C59_reported : forall extract a al us tss,
  produced (a, al) -> fine_archive a al -> a_revision_number a = None -> Forall2 (fun x p => parsed_in extract a x (fst p) (snd p)) us tss -> us <> [] ->
  exists d evs, Archive_Spec.archive_doc a al us = xml_declaration a ++ instruction a ++ d ++ [10] /\ reported (instruction a) d evs.
Proof. exact something_reported. Qed.
Print Assumptions C59_reported.
Theorem C59_unit_reported : forall extract a x ts s, produced (a, []) -> fine_archive a [] -> a_revision_number a = None -> parsed_in extract a x ts s ->
  exists d evs, solitary_doc a x = xml_declaration a ++ instruction a ++ d ++ [10] /\ reported (instruction a) d evs.
Proof. exact something_reported_lone. Qed.
Print Assumptions C59_unit_reported.
(** An archive without units is read back as one unit. *)
Theorem C59_no_units_refuted : exists d s ls b, Archive_Spec.archive_doc archive_create [] [] = xml_declaration archive_create ++ d ++ [10] /\ reported [] d bare_events /\ calm ls /\
  steps sax ls (open (parse bare_events false) [Read]) = Some s /\ cl s = CGone /\ results s = [RUnit (Some (t_attrs bare)) (Some b)].
Proof. exact no_units. Qed.
Print Assumptions C59_no_units_refuted.

(** All hypotheses are met by two copies of a unit and a macro, and by a lone unit; and reading comes to its end. *)
Example C59_example : forall extract ops, let a := Api_Model.run macro_calls archive_create in
  exists x d evs ls s, produced (a, []) /\ fine_archive a [] /\ N.testbit (a_options a) 14 = true /\ N.testbit (a_options a) 8 = true /\ a_revision_number a = None /\ cpp_named a /\
    Forall2 (fun x p => parsed_in extract a x (fst p) (snd p)) [x; x] [(small, [97; 60; 98; 12; 10]); (small, [97; 60; 98; 12; 10])] /\
    Archive_Spec.archive_doc a [] [x; x] = xml_declaration a ++ instruction a ++ d ++ [10] /\ reported (instruction a) d evs /\
    calm ls /\ steps sax ls (open (parse evs false) ops) = Some s /\ cl s = CGone.
Proof.
  intros extract ops a. assert (P : produced (a, [])) by apply produced_run. assert (F : fine_archive a []) by exact macro_fine.
  assert (A : N.testbit (a_options a) 14 = true) by (vm_compute; reflexivity). assert (D : N.testbit (a_options a) 8 = true) by (vm_compute; reflexivity).
  assert (R : a_revision_number a = None) by (vm_compute; reflexivity). assert (C : cpp_named a) by (apply cpp_named_new; vm_compute; reflexivity).
  assert (S : exists v c, parsed_in extract a (a, wu v, c) small [97; 60; 98; 12; 10]) by (apply small_parsed; vm_compute; reflexivity).
  destruct S as (v & c & S). set (x := (a, wu v, c)) in *.
  assert (U : Forall2 (fun x p => parsed_in extract a x (fst p) (snd p)) [x; x] [(small, [97; 60; 98; 12; 10]); (small, [97; 60; 98; 12; 10])]) by (constructor; [exact S|constructor; [exact S|constructor]]).
  destruct (something_reported extract a [] [x; x] _ P F R U ltac:(discriminate)) as (d & evs & DD & RP).
  destruct (finishes sax (open (parse evs false) ops) (12 * length ops + 8 * 2 + 30)%nat) as (ls & s & CA & ST & GO).
  { intros ls s CA ST. destruct (archive_read_back extract a [] [x; x] _ d evs false ops ls s P F A D R C U ltac:(discriminate) DD RP CA ST) as (G & B & _). split; [exact G|exact B]. }
  exists x, d, evs, ls, s. auto 14.
Qed.
Example C59_example_unit : forall extract ops, let a := Api_Model.run lone_calls archive_create in
  exists x d evs ls s, produced (a, []) /\ fine_archive a [] /\ N.testbit (a_options a) 14 = false /\ a_revision_number a = None /\ a_pi a = None /\ cpp_named a /\ lone_names small /\
    parsed_in extract a x small [97; 60; 98; 12; 10] /\ solitary_doc a x = xml_declaration a ++ d ++ [10] /\ reported [] d evs /\
    calm ls /\ steps sax ls (open (parse evs false) ops) = Some s /\ cl s = CGone.
Proof.
  intros extract ops a. assert (P : produced (a, [])) by apply produced_run. assert (F : fine_archive a []) by exact lone_fine.
  assert (A : N.testbit (a_options a) 14 = false) by (vm_compute; reflexivity). assert (I : a_pi a = None) by (vm_compute; reflexivity).
  assert (R : a_revision_number a = None) by (vm_compute; reflexivity). assert (C : cpp_named a) by (apply cpp_named_new; vm_compute; reflexivity).
  assert (L : lone_names small) by (split; [intros J; vm_compute in J; repeat (destruct J as [J|J]; [discriminate J|]); destruct J|vm_compute; discriminate]).
  assert (S : exists v c, parsed_in extract a (a, wu v, c) small [97; 60; 98; 12; 10]) by (apply small_parsed; vm_compute; reflexivity).
  destruct S as (v & c & S). set (x := (a, wu v, c)) in *.
  destruct (something_reported_lone extract a x _ _ P F R S) as (d & evs & DD & RP). replace (instruction a) with (@nil N) in DD, RP by (unfold instruction; rewrite I; reflexivity). cbn [app] in DD.
  destruct (finishes sax (open (parse evs false) ops) (12 * length ops + 31)%nat) as (ls & s & CA & ST & GO).
  { intros ls s CA ST. destruct (unit_read_back extract a x _ _ d evs false ops ls s P F A R I C L S DD RP CA ST) as (G & B & _). split; [exact G|exact B]. }
  exists x, d, evs, ls, s. auto 15.
Qed.
