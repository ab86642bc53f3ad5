(** --to-dir: concrete requests, and what goes wrong (C62). *)
From Verif Require Import Base Text_Model Text_Spec Text_Proofs3 Api_Model Api_Spec Writer_Model Writer_Spec Archive_Model Archive_Spec Archive_Proofs4 Input_Model
  Create_Model Create_Spec Create_Examples Writer_Proofs10 Reuse_Model Todir_Model Todir_Spec.
Local Open Scope N_scope.

(** the result of a run: [None]: the request does not start; [Some UB]: undefined behaviour *)
Definition written_by (creates : bytes -> bool) (r : crequest) (ins : list (input_src * input)) (t : list fop) : option (outcome (list (bytes * bytes))) :=
  match setup r (map fst ins), handle r ins with
  | Ok (Some cs), Some (ms, w, false, fl) => match arun new_am (map Setting cs) with Ok (_, m1) => Some (frun creates m1 None t) | UB => None end
  | _, _ => None
  end.
Lemma written_makes : forall creates r ins ps t l, starts_files r ins ps t -> written_by creates r ins t = Some (Ok l) -> makes creates r ins ps t l.
Proof.
  intros creates r ins ps t l (cs & ms & w & fl & SE & HA & W) H. unfold written_by in H. rewrite SE, HA in H.
  destruct (arun new_am (map Setting cs)) as [[rs m1]|] eqn:E; [|discriminate H]. injection H as H. exists cs, ms, w, fl, rs, m1. cbn in *. repeat split; assumption.
Qed.
Lemma written_not : forall creates r ins ps t l, written_by creates r ins t = Some UB -> ~ makes creates r ins ps t l.
Proof.
  intros creates r ins ps t l H (cs & ms & w & fl & rs & m1 & SE & HA & W & E & F). unfold written_by in H. rewrite SE, HA, E in H. injection H as H. rewrite F in H. discriminate H.
Qed.
Ltac begin_files ms := eexists _, ms, _, _; split; [vm_compute; reflexivity|split; [reflexivity|]]; cbn [c_mode req].
Ltac weave := repeat first [apply wv_end | apply wv_set | apply wv_schedule; cbn [file_request main_unit write_request app map p_dir p_name parsed1] | apply wv_write].

Definition out : bytes := txt "out".
Definition named (n : bytes) : place := At (Some out) (Some n).
Definition unit_op : fop := FDo (EUnit (None, sample)).
Definition one_file (p : bytes) : list fop := [FOpen p; unit_op; FClose].
Definition sol_text : bytes := decl_line ++ solitary_unit ++ [10].
Definition both_places : list place := [named (txt "a.c"); named (txt "d/b.c")].
Definition both_calls : list fop := one_file (txt "out/a.c.xml") ++ one_file (txt "out/d/b.c.xml").
Lemma both_start : starts_files (req false) two both_places both_calls.
Proof. begin_files [MSchedule parsed1; MSchedule parsed1]. weave. Qed.
Lemma file_of_sample : file_of Plain archive_create parsed1 sol_text.
Proof.
  apply (file_units _ _ _ _ [(archive_create, sample, Some sample_xml)]); [discriminate|left; reflexivity|apply sample_reading; reflexivity|vm_compute; reflexivity].
Qed.
Lemma both_made : makes (fun _ => true) (req false) two both_places both_calls [(txt "out/a.c.xml", sol_text); (txt "out/d/b.c.xml", sol_text)] /\
  makes (fun p => negb (beqb p (txt "out/a.c.xml"))) (req false) two both_places both_calls [(txt "out/d/b.c.xml", sol_text)].
Proof. split; apply written_makes; try exact both_start; vm_compute; reflexivity. Qed.
Lemma both_no_srcml : no_srcml two.
Proof. reflexivity. Qed.

(** sources with the same name: the file of the first is lost *)
Definition sample2 : uobj := parsed_in archive_create [TreeElem 0 (txt "expr") [] [] [TreeText (txt "c")]].
Definition parsed2 : creq := Parsed NoResults (Some (None, sample2)).
Definition same : list (input_src * input) := [(file_a, IText [parsed1; parsed2])].
Definition same_calls : list fop := FSet DisableSolitary :: one_file (txt "out/a.c.xml") ++ [FOpen (txt "out/a.c.xml"); FDo (EUnit (None, sample2)); FClose].
Definition sol_text2 : bytes := decl_line ++ txt "<unit xmlns=""http://www.srcML.org/srcML/src"" revision=""1.0.0"" language=""C"" filename=""a.c""><expr>c</expr></unit>" ++ [10].
Lemma same_lost : exists ps l, no_srcml same /\ starts_files (req false) same ps same_calls /\ makes (fun _ => true) (req false) same ps same_calls l /\
  l = [(txt "out/a.c.xml", sol_text); (txt "out/a.c.xml", sol_text2)] /\ file_at (txt "out/a.c.xml") l = Some sol_text2.
Proof.
  exists [named (txt "a.c"); named (txt "a.c")], [(txt "out/a.c.xml", sol_text); (txt "out/a.c.xml", sol_text2)].
  assert (ST : starts_files (req false) same [named (txt "a.c"); named (txt "a.c")] same_calls).
  { begin_files [MSet DisableSolitary; MSchedule parsed1; MSchedule parsed2]. weave. }
  split; [reflexivity|]. split; [exact ST|]. split; [apply written_makes; [exact ST|vm_compute; reflexivity]|]. split; [reflexivity|]. vm_compute. reflexivity.
Qed.
(** a source without a name (standard input or --text without --filename), a unit of a srcML input: undefined *)
Lemma nameless : starts_files (req false) one [At (Some out) None] [FDo EBad] /\ forall l, ~ makes (fun _ => true) (req false) one [At (Some out) None] [FDo EBad] l.
Proof.
  split; [begin_files [MSchedule parsed1]; weave|]. intros l. apply written_not. vm_compute. reflexivity.
Qed.
Definition split_up : list (input_src * input) := [(xml_a, ISrcml 0 (Some (SrcmlIn false [] [read1])))].
Lemma not_split : exists t, starts_files (req true) split_up [At None None] t /\ forall l, ~ makes (fun _ => true) (req true) split_up [At None None] t l.
Proof.
  eexists. split; [begin_files [MSet DisableSolitary; MSchedule read1]; apply wv_set, wv_schedule; cbn [read1 file_request main_unit write_request app map p_dir p_name]; weave|].
  intros l. apply written_not. vm_compute. reflexivity.
Qed.

(** the digest of a source is in its file as soon as there are two inputs, and the option --hash is not needed *)
Definition settings : environment := Env (fun _ => true) (fun _ _ => txt "UTF-8") (fun _ => txt "d1") (fun _ _ _ => flat_map tokens_of [TreeElem 0 (txt "decl") [] [] [TreeText (txt "a<b")]]) (fun s => s).
Definition parsed_for (r : crequest) (ins : list (input_src * input)) : uobj :=
  match setup r (map fst ins) with
  | Ok (Some cs) => match unit_parse settings (run cs archive_create) (plain_unit (txt "a.c")) 1 (Some (txt "a<b")) with Ok (_, v) => wu v | UB => new_unit 0 end
  | _ => new_unit 0
  end.
Definition hash_text : bytes := decl_line ++ txt "<unit xmlns=""http://www.srcML.org/srcML/src"" revision=""1.0.0"" language=""C"" filename=""a.c"" hash=""d1""><decl>a&lt;b</decl></unit>" ++ [10].
Definition input_with (u : uobj) : input_src * input := (file_a, IFile (Parsed NoResults (Some (None, u)))).
Lemma parsed_inputs : forall r ins ins', map fst ins = map fst ins' -> parsed_for r ins = parsed_for r ins'.
Proof. intros r ins ins' H. unfold parsed_for. rewrite H. reflexivity. Qed.
Lemma hash_shown : exists u1 u2 t1 t2, u1 = parsed_for (req false) [input_with u1] /\ u2 = parsed_for (req false) [input_with u2; input_with u2] /\
  starts_files (req false) [input_with u1] [named (txt "a.c")] t1 /\ makes (fun _ => true) (req false) [input_with u1] [named (txt "a.c")] t1 [(txt "out/a.c.xml", sol_text)] /\
  starts_files (req false) [input_with u2; input_with u2] [named (txt "a.c"); named (txt "b.c")] t2 /\
  makes (fun _ => true) (req false) [input_with u2; input_with u2] [named (txt "a.c"); named (txt "b.c")] t2 [(txt "out/a.c.xml", hash_text); (txt "out/b.c.xml", hash_text)].
Proof.
  set (u1 := parsed_for (req false) [input_with (new_unit 0)]). set (u2 := parsed_for (req false) [input_with (new_unit 0); input_with (new_unit 0)]).
  exists u1, u2, [FOpen (txt "out/a.c.xml"); FDo (EUnit (None, u1)); FClose], [FOpen (txt "out/a.c.xml"); FDo (EUnit (None, u2)); FClose; FOpen (txt "out/b.c.xml"); FDo (EUnit (None, u2)); FClose].
  assert (S1 : starts_files (req false) [input_with u1] [named (txt "a.c")] [FOpen (txt "out/a.c.xml"); FDo (EUnit (None, u1)); FClose]).
  { eexists _, [MSchedule (Parsed NoResults (Some (None, u1)))], _, _. split; [vm_compute; reflexivity|split; [reflexivity|]]. cbn [c_mode req]. weave. }
  assert (S2 : starts_files (req false) [input_with u2; input_with u2] [named (txt "a.c"); named (txt "b.c")]
     [FOpen (txt "out/a.c.xml"); FDo (EUnit (None, u2)); FClose; FOpen (txt "out/b.c.xml"); FDo (EUnit (None, u2)); FClose]).
  { eexists _, [MSchedule (Parsed NoResults (Some (None, u2))); MSchedule (Parsed NoResults (Some (None, u2)))], _, _. split; [vm_compute; reflexivity|split; [reflexivity|]]. cbn [c_mode req]. weave. }
  split; [apply parsed_inputs; reflexivity|]. split; [apply parsed_inputs; reflexivity|]. split; [exact S1|]. split; [apply written_makes; [exact S1|vm_compute; reflexivity]|]. split; [exact S2|]. apply written_makes; [exact S2|vm_compute; reflexivity].
Qed.
