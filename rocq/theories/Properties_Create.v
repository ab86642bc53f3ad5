(** The output of creating srcML (C57). *)
From Verif Require Import Base Text_Model Text_Spec Api_Model Api_Spec Writer_Model Writer_Spec Archive_Model Archive_Spec Archive_Proofs4 Input_Model Create_Model Create_Spec Create_Proofs Create_Proofs5 Create_Proofs6 Create_Examples.
Local Open Scope N_scope.

(** Whatever the order of the calls of the threads, the output is the document with the settings asked for and the units of all sources of all
    inputs, in order. *)
Theorem C57_document : forall v r ins, c_mode r = Plain -> fits v ins -> ordered r ins -> Forall (fun q => scalar q = false) (all_sources ins) -> (exists t, starts r ins t) ->
  exists a, requested r ins a /\ forall t xs, starts r ins t -> readings a (flat_map units_of (all_sources ins)) xs ->
    (exists m, outputs r ins t m) /\ forall m, outputs r ins t m -> am_files m = [document (ends_well ins) a xs].
Proof. exact outputs_document. Qed.
Print Assumptions C57_document.
(** So the order of the calls does not show. *)
Theorem C57_order : forall v r ins t1 t2 m1 m2, c_mode r = Plain -> fits v ins -> ordered r ins -> Forall (fun q => scalar q = false) (all_sources ins) -> starts r ins t1 -> starts r ins t2 ->
  (forall a, requested r ins a -> exists xs, readings a (flat_map units_of (all_sources ins)) xs) -> outputs r ins t1 m1 -> outputs r ins t2 m2 -> am_files m1 = am_files m2.
Proof. exact outputs_same. Qed.
Print Assumptions C57_order.
(** A document that is not an archive has at most one unit. *)
Theorem C57_one_unit : forall v r ins t, c_mode r = Plain -> fits v ins -> ordered r ins -> Forall (fun q => scalar q = false) (all_sources ins) -> starts r ins t ->
  as_archive r ins = false -> (length (flat_map units_of (all_sources ins)) <= 1)%nat.
Proof. exact solitary_single. Qed.
Print Assumptions C57_one_unit.
(** The sources of all inputs are handed on, each once, in order. *)
Theorem C57_sources : forall r ins ms w fl, handle r ins = Some (ms, w, false, fl) -> scheduled ms = all_sources ins.
Proof. exact handle_scheduled. Qed.
Print Assumptions C57_sources.
(** Results that are text, and the outer or inner XML of units, are written as lines, in the order of the sources. *)
Theorem C57_text : forall r ins t xs, starts r ins t -> Forall2 (printed (c_mode r)) (all_sources ins) xs -> Exists (fun x => x <> None) xs ->
  (exists m, outputs r ins t m) /\ forall m, outputs r ins t m -> am_files m = [text_of xs].
Proof. exact outputs_text. Qed.
Print Assumptions C57_text.
(** But an archive read and written without -X becomes a text with several document elements, *)
Theorem C57_without_X_refuted : exists t m, starts (req false) copied t /\ fits false copied /\ ends_well copied = true /\ outputs (req false) copied t m /\
  am_files m = [decl_line ++ solitary_unit ++ solitary_unit ++ [10]].
Proof. exact copied_output. Qed.
Print Assumptions C57_without_X_refuted.
(** with two srcML inputs the order of the calls decides whether the namespaces of the second are declared, *)
Theorem C57_second_namespaces_refuted : exists t1 t2 m1 m2, starts (req true) both t1 /\ starts (req true) both t2 /\ fits false both /\ ends_well both = true /\
  outputs (req true) both t1 m1 /\ outputs (req true) both t2 m2 /\
  am_files m1 = [both_text root] /\ am_files m2 = [both_text (txt "<unit xmlns=""http://www.srcML.org/srcML/src"" xmlns:x=""http://x"" revision=""1.0.0"">")].
Proof. exact both_output. Qed.
Print Assumptions C57_second_namespaces_refuted.
(** a single input without source gives an XML declaration and no element, *)
Theorem C57_no_source_refuted : exists m, starts (req false) ignored [] /\ fits true ignored /\ outputs (req false) ignored [] m /\ am_files m = [decl_line].
Proof. exact ignored_output. Qed.
Print Assumptions C57_no_source_refuted.
(** and several inputs that all fail an empty file instead of an archive. *)
Theorem C57_failed_refuted : exists m, starts (req false) failed [] /\ fits false failed /\ outputs (req false) failed [] m /\ am_files m = [[]].
Proof. exact failed_output. Qed.
Print Assumptions C57_failed_refuted.
Example C57_example : starts (req false) one [EUnit (None, sample)] /\ starts (req false) two [EUnit (None, sample); EUnit (None, sample)] /\ fits false two /\ fits false one /\
  ordered (req false) two /\ as_archive (req false) one = false /\ as_archive (req false) two = true /\
  (forall a, a_revision_number a = None -> readings a [(None, sample)] [(a, sample, Some sample_xml)]) /\
  (exists m, outputs (req false) one [EUnit (None, sample)] m /\ am_files m = [decl_line ++ solitary_unit ++ [10]]) /\
  (exists m, outputs (req false) two [EUnit (None, sample); EUnit (None, sample)] m /\
     am_files m = [decl_line ++ root ++ [10; 10] ++ inner_unit ++ [10; 10] ++ inner_unit ++ [10; 10] ++ txt "</unit>" ++ [10]]) /\
  ((exists t, starts (req false) counts t) /\ Forall2 (printed Plain) (all_sources counts) [Some (txt "3" ++ [10]); Some (txt "true" ++ [10]); None]).
Proof.
  split; [exact one_starts|]. split; [exact two_starts|]. split; [apply two_fits|]. split; [apply two_fits|]. split; [reflexivity|]. split; [reflexivity|]. split; [reflexivity|].
  split; [exact sample_reading|]. split; [exact one_output|]. split; [exact two_output|]. split; apply counts_ok.
Qed.
