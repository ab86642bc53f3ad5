(** Creating srcML: concrete requests, and what goes wrong (C57). *)
From Verif Require Import Base Text_Model Text_Spec Text_Proofs3 Api_Model Api_Spec Writer_Model Writer_Spec Archive_Model Archive_Spec Archive_Proofs4 Input_Model Create_Model Create_Spec Create_Proofs5.
Local Open Scope N_scope.

Definition req (x : bool) : crequest := CRequest None None None None None false false false false false false false 8 [] [] None x false Plain.
Definition at_name (n : bytes) (k : source_kind) : input_src := InputSrc (txt "file://" ++ n) (txt "file") n false false n [] [] [] k.
Definition file_a : input_src := at_name (txt "a.c") KSrc.
Definition file_b : input_src := at_name (txt "b.c") KSrc.
Definition xml_a : input_src := at_name (txt "a.xml") KSrcml.
Definition xml_b : input_src := at_name (txt "b.xml") KSrcml.
(** a source that was parsed, for the output archive; a unit read from an archive *)
Definition parsed1 : creq := Parsed NoResults (Some (None, sample)).
Definition read1 : creq := Parsed NoResults (Some (Some archive_create, sample)).
Definition sample_xml : bytes := txt "<decl>a&lt;b</decl>".
(** the result of a run *)
Definition produced (r : crequest) (ins : list (input_src * input)) (t : list eop) : option (list bytes) :=
  match setup r (map fst ins), handle r ins with
  | Ok (Some cs), Some (ms, w, rf, fl) =>
      let closed := closes w rf fl (scheduled ms) in
      match arun new_am (OpenOutput true true :: map Setting cs ++ calls_of (run cs archive_create) t ++ (if closed then [Close] else [])) with
      | Ok (_, m) => Some (am_files (if closed then m else archive_free m))
      | UB => None
      end
  | _, _ => None
  end.
Lemma produced_outputs : forall r ins t f, starts r ins t -> produced r ins t = Some f -> exists m, outputs r ins t m /\ am_files m = f.
Proof.
  intros r ins t f (cs & ms & w & fl & SE & HA & IL) H. unfold produced in H. rewrite SE, HA in H. cbv zeta in H.
  destruct (arun _ _) as [[rs m1]|] eqn:E; [|discriminate H]. injection H as <-. eexists. split; [|reflexivity]. exists cs, ms, w, false, fl, rs, m1. repeat split; try assumption.
Qed.
Ltac start ms := eexists _, ms, _, _; split; [vm_compute; reflexivity|split; [reflexivity|]]; cbn [c_mode req].
Ltac order := repeat first [apply il_end | apply il_set | apply il_schedule; cbn [write_request main_unit app] | apply il_write].

(** one file, and two *)
Definition one : list (input_src * input) := [(file_a, IFile parsed1)].
Definition two : list (input_src * input) := [(file_a, IFile parsed1); (file_b, IFile parsed1)].
Lemma one_starts : starts (req false) one [EUnit (None, sample)].
Proof. start [MSchedule parsed1]. order. Qed.
Lemma two_starts : starts (req false) two [EUnit (None, sample); EUnit (None, sample)].
Proof. start [MSchedule parsed1; MSchedule parsed1]. apply il_schedule. cbn [write_request main_unit app c_mode req parsed1]. apply il_write. order. Qed.
Lemma two_fits : fits false two /\ fits false one.
Proof. split; repeat constructor. Qed.
Definition solitary_text : bytes := decl_line ++ solitary_unit ++ [10].
Lemma one_output : exists m, outputs (req false) one [EUnit (None, sample)] m /\ am_files m = [solitary_text].
Proof. apply produced_outputs; [exact one_starts|]. vm_compute. reflexivity. Qed.
Definition inner_unit : bytes := txt "<unit revision=""1.0.0"" language=""C"" filename=""a.c""><decl>a&lt;b</decl></unit>".
Lemma two_output : exists m, outputs (req false) two [EUnit (None, sample); EUnit (None, sample)] m /\
  am_files m = [decl_line ++ root ++ [10; 10] ++ inner_unit ++ [10; 10] ++ inner_unit ++ [10; 10] ++ txt "</unit>" ++ [10]].
Proof. apply produced_outputs; [exact two_starts|]. vm_compute. reflexivity. Qed.
Lemma sample_reading : forall a, a_revision_number a = None -> readings a [(None, sample)] [(a, sample, Some sample_xml)].
Proof.
  intros a R. constructor; [|constructor]. split; [cbn [fst snd owner]; unfold owner; cbn [fst snd]; reflexivity|]. split; cbn [fst snd]; [|vm_compute; reflexivity]. exists sample_xml. split; [vm_compute; reflexivity|].
  unfold selects_revision. rewrite R. reflexivity.
Qed.

(** an archive copied without -X: two document elements *)
Definition copied : list (input_src * input) := [(xml_a, ISrcml 0 (Some (SrcmlIn false [] [read1; read1])))].
Lemma copied_output : exists t m, starts (req false) copied t /\ fits false copied /\ ends_well copied = true /\ outputs (req false) copied t m /\
  am_files m = [decl_line ++ solitary_unit ++ solitary_unit ++ [10]].
Proof.
  exists [EUnit (Some archive_create, sample); EUnit (Some archive_create, sample)].
  assert (ST : starts (req false) copied [EUnit (Some archive_create, sample); EUnit (Some archive_create, sample)]).
  { start [MSchedule read1; MSchedule read1]. apply il_schedule. cbn [write_request main_unit app c_mode req read1]. apply il_write. order. }
  destruct (produced_outputs (req false) copied _ [decl_line ++ solitary_unit ++ solitary_unit ++ [10]] ST) as (m & O & F); [vm_compute; reflexivity|].
  exists m. split; [exact ST|]. split; [repeat constructor; discriminate|]. split; [reflexivity|]. split; assumption.
Qed.
(** two srcML inputs: the namespaces of the second are declared or not *)
Definition both : list (input_src * input) :=
  [(xml_a, ISrcml 0 (Some (SrcmlIn false [] [read1]))); (xml_b, ISrcml 0 (Some (SrcmlIn false [(txt "x", txt "http://x")] [read1])))].
Definition u1 : eop := EUnit (Some archive_create, sample).
Definition ns_x : eop := ESet (RegisterNamespace (Some (txt "x")) (Some (txt "http://x"))).
Definition both_text (r : bytes) : bytes := decl_line ++ r ++ [10; 10] ++ inner_unit ++ [10; 10] ++ inner_unit ++ [10; 10] ++ txt "</unit>" ++ [10].
Lemma both_output : exists t1 t2 m1 m2, starts (req true) both t1 /\ starts (req true) both t2 /\ fits false both /\ ends_well both = true /\
  outputs (req true) both t1 m1 /\ outputs (req true) both t2 m2 /\
  am_files m1 = [both_text root] /\ am_files m2 = [both_text (txt "<unit xmlns=""http://www.srcML.org/srcML/src"" xmlns:x=""http://x"" revision=""1.0.0"">")].
Proof.
  exists [ESet DisableSolitary; u1; ESet DisableSolitary; ns_x; u1], [ESet DisableSolitary; ESet DisableSolitary; ns_x; u1; u1].
  assert (S1 : starts (req true) both [ESet DisableSolitary; u1; ESet DisableSolitary; ns_x; u1]).
  { start [MSet DisableSolitary; MSchedule read1; MSet DisableSolitary; MSet (RegisterNamespace (Some (txt "x")) (Some (txt "http://x"))); MSchedule read1]. apply il_set, il_schedule. cbn [write_request main_unit app c_mode req read1]. apply il_write. order. }
  assert (S2 : starts (req true) both [ESet DisableSolitary; ESet DisableSolitary; ns_x; u1; u1]).
  { start [MSet DisableSolitary; MSchedule read1; MSet DisableSolitary; MSet (RegisterNamespace (Some (txt "x")) (Some (txt "http://x"))); MSchedule read1]. order. }
  destruct (produced_outputs _ _ _ [both_text root] S1) as (m1 & O1 & F1); [vm_compute; reflexivity|].
  destruct (produced_outputs _ _ _ [both_text (txt "<unit xmlns=""http://www.srcML.org/srcML/src"" xmlns:x=""http://x"" revision=""1.0.0"">")] S2) as (m2 & O2 & F2); [vm_compute; reflexivity|].
  exists m1, m2. repeat (split; [assumption|]). split; [repeat constructor; discriminate|]. split; [reflexivity|]. repeat (split; [assumption|]). assumption.
Qed.
(** a single file without source, and two files that cannot be parsed *)
Definition ignored : list (input_src * input) := [(at_name (txt "a.txt") KSrc, IEntries Skipped)].
Lemma ignored_output : exists m, starts (req false) ignored [] /\ fits true ignored /\ outputs (req false) ignored [] m /\ am_files m = [decl_line].
Proof.
  assert (ST : starts (req false) ignored []) by (start (@nil mevent); order). destruct (produced_outputs _ _ _ [decl_line] ST) as (m & O & F); [vm_compute; reflexivity|].
  exists m. split; [exact ST|]. split; [repeat constructor|]. split; assumption.
Qed.
Definition failed : list (input_src * input) := [(file_a, IFile (Failed true)); (file_b, IFile (Failed true))].
Lemma failed_output : exists m, starts (req false) failed [] /\ fits false failed /\ outputs (req false) failed [] m /\ am_files m = [[]].
Proof.
  assert (ST : starts (req false) failed []) by (start [MSchedule (Failed true); MSchedule (Failed true)]; order). destruct (produced_outputs _ _ _ [[]] ST) as (m & O & F); [vm_compute; reflexivity|].
  exists m. split; [exact ST|]. split; [repeat constructor|]. split; assumption.
Qed.
(** results that are text *)
Definition counts : list (input_src * input) := [(file_a, IFile (Parsed (RNumber (Some (txt "3"))) None)); (file_b, IFile (Parsed (RBool true) None)); (file_b, IFile (Failed true))].
Lemma counts_ok : (exists t, starts (req false) counts t) /\ Forall2 (printed Plain) (all_sources counts) [Some (txt "3" ++ [10]); Some (txt "true" ++ [10]); None] /\
  text_of [Some (txt "3" ++ [10]); Some (txt "true" ++ [10]); None] = txt "3" ++ [10] ++ txt "true" ++ [10].
Proof.
  split; [|split; [|reflexivity]].
  - eexists. start [MSchedule (Parsed (RNumber (Some (txt "3"))) None); MSchedule (Parsed (RBool true) None); MSchedule (Failed true)]. order.
  - constructor; [exists (txt "3"); split; reflexivity|]. constructor; [reflexivity|]. constructor; [reflexivity|constructor].
Qed.
(** an empty text result *)
Lemma empty_string : forall m u, In EBad (write_request m (Parsed (RString []) u)).
Proof. intros m u. right. left. reflexivity. Qed.
