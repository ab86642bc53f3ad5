(** Properties C27 and C39: reading a document unit by unit while another thread parses it.
    [steps sax ls (open (parse evs err) ops) = Some s]: a document with the events [evs], ending in an
    error if [err], is opened; the caller makes the calls [ops] and then frees the archive; the two threads
    reach [s] by the transitions [ls].  [calm ls]: no spurious wake-up.  [cl s = CGone]: all is over.
    Vocabulary: Handoff_Spec.v, Sax_Spec.v, Stream_Spec.v. *)
From Verif Require Import Base Text_Model Text_Spec Api_Model Writer_Model Writer_Spec Handoff_Model Handoff_Spec Handoff_Proofs3
  Writer_Proofs10 Sax_Model Sax_Spec Stream_Spec Sax_Proofs7.

(** * C27 *)
(** For any parser that shows the units [us]: the caller gets each read unit with its own header and body,
    in order, then null; a skip skips one; a unit is only written to while it is being read; and when the
    caller is gone, the thread has ended. *)
Theorem C27_delivered_partial : forall X H B (M : machine X H B) k x us e ops ls s,
  begins M k x us e -> calm ls -> steps M ls (open x ops) = Some s ->
  prefix_of (results s) (reads us ops) /\ fault s = false /\
  (cl s = CGone -> results s = reads us ops /\ pa s = PExit).
Proof. exact @delivered. Qed.
Print Assumptions C27_delivered_partial.
(** It does, with srcML's: for every archive, whole or malformed, and every document of one unit. *)
Theorem C27_archive_partial : forall d err ops ls s,
  archive_ok d -> (whole d = false -> err = true) -> calm ls ->
  steps sax ls (open (parse (archive_events d) err) ops) = Some s ->
  prefix_of (results s) (reads (read_units d) ops) /\ fault s = false /\
  (cl s = CGone -> results s = reads (read_units d) ops /\ pa s = PExit).
Proof. exact archive_delivered. Qed.
Print Assumptions C27_archive_partial.
Theorem C27_solo_partial : forall d err ops ls s,
  solo_ok d -> calm ls -> steps sax ls (open (parse (solo_events d) err) ops) = Some s ->
  prefix_of (results s) (reads [(t_attrs (s_tag d), Some (solo_body d))] ops) /\ fault s = false /\
  (cl s = CGone -> results s = reads [(t_attrs (s_tag d), Some (solo_body d))] ops /\ pa s = PExit).
Proof. exact solo_delivered. Qed.
Print Assumptions C27_solo_partial.
(** Whatever the caller does, it is never left waiting: until all is over a thread can go on, and there are
    only so many transitions. *)
Theorem C27_archive_ends_partial : forall d err ops ls s,
  archive_ok d -> whole d = true -> calm ls ->
  steps sax ls (open (parse (archive_events d) err) ops) = Some s ->
  cl s = CGone \/ exists l s', (l = Caller \/ l = Parser) /\ step sax l s = Some s'.
Proof. exact archive_not_stuck. Qed.
Print Assumptions C27_archive_ends_partial.
Theorem C27_archive_bounded : forall d err ops ls s,
  archive_ok d -> (whole d = false -> err = true) -> calm ls ->
  steps sax ls (open (parse (archive_events d) err) ops) = Some s ->
  length ls <= 12 * length ops + 8 * length (a_units d) + 30.
Proof. exact archive_bounded. Qed.
Print Assumptions C27_archive_bounded.
Theorem C27_solo_ends_partial : forall d err ops ls s,
  solo_ok d -> calm ls -> steps sax ls (open (parse (solo_events d) err) ops) = Some s ->
  (cl s = CGone \/ exists l s', (l = Caller \/ l = Parser) /\ step sax l s = Some s') /\ length ls <= 12 * length ops + 31.
Proof. exact solo_not_stuck. Qed.
Print Assumptions C27_solo_ends_partial.
(** In a malformed document only one thing can go wrong: the caller waits for a thread that has ended. *)
Theorem C27_malformed_partial : forall d err ops ls s,
  archive_ok d -> (whole d = false -> err = true) -> calm ls ->
  steps sax ls (open (parse (archive_events d) err) ops) = Some s ->
  cl s = CGone \/ (exists l s', (l = Caller \/ l = Parser) /\ step sax l s = Some s') \/ left_waiting s.
Proof. exact archive_stuck_only_lost. Qed.
Print Assumptions C27_malformed_partial.

(** Documents. *)
Definition SRC := txt "http://www.srcML.org/srcML/src".
Definition nl := [10%N].
Definition plain_text x := XText true x x.
Definition blank x := XText false x x.
Definition cmt x := XComment (txt "<!--" ++ x ++ txt "-->") x.
Definition bare_tag n := Tag n None [] [] (60%N :: n) false.
Definition name x := [XStart (bare_tag (txt "name")); plain_text x; XEnd (txt "name") (txt "</name>")].
Definition root_tag := Tag (txt "unit") None [(None, SRC)] [] (txt "<unit xmlns=""" ++ SRC ++ [34%N]) false.
Definition unit_of f content := Element (Tag (txt "unit") None [] [(txt "filename", f)] (txt "<unit filename=""" ++ f ++ [34%N]) false) content (txt "</unit>").
Definition gap2 := [blank (nl ++ nl)].
Definition archive_with us := ArchiveDoc [] root_tag gap2 us (Whole (txt "</unit>") []).
Definition two := archive_with [(unit_of (txt "a") (name (txt "x") ++ [plain_text nl]), gap2); (unit_of (txt "b") [], gap2)].
Definition cut := ArchiveDoc [] root_tag gap2 [(unit_of (txt "a") (name (txt "x")), gap2)]
  (CutInside (e_tag (unit_of (txt "b") [])) [plain_text (txt "y")] (name (txt "z"))).
Definition solo t := SoloDoc [] root_tag t (name (txt "x")) (txt "</unit>") [].
(** What was read: srcML, source, lines. *)
Definition texts (s : sys px (list (bytes * bytes)) ubody) :=
  map (fun r => match r with RUnit _ (Some b) => Some (b_srcml b, b_src b, b_loc b) | _ => None end) (results s).
Definition root_start := txt "<unit xmlns=""" ++ SRC ++ [34%N].
Definition in_root f := root_start ++ txt " filename=""" ++ f ++ txt """>".

Lemma name_balanced x r : balanced r -> balanced (name x ++ r).
Proof.
  intros B. change (name x ++ r) with (element_events (Element (bare_tag (txt "name")) [plain_text x] (txt "</name>")) ++ r).
  apply bal_element; [apply bal_leaf; [exact I|constructor]|exact I|exact B].
Qed.
Lemma blank_ok : blank_event (blank (nl ++ nl)).
Proof. split; [reflexivity|]. split; [discriminate|]. repeat constructor; right; right; left; reflexivity. Qed.
Lemma gap2_ok : gap gap2.
Proof. right. exists [], (blank (nl ++ nl)). split; [reflexivity|]. split; [constructor|exact blank_ok]. Qed.
Lemma root_ok : Sax_Spec.unit_tag root_tag.
Proof. split; [reflexivity|]. split; [reflexivity|]. constructor; [|constructor]. intros E. vm_compute in E. discriminate E. Qed.
Lemma unit_of_ok f c : balanced c -> content_ok false c -> Sax_Spec.unit_ok (unit_of f c).
Proof. intros B C. split; [split; [reflexivity|]; split; [reflexivity|constructor]|]. split; [exact B|]. split; [exact C|exact I]. Qed.
Lemma name_content x r a : (exists c y, x = c :: y /\ c <> 62%N) -> content_ok false r -> content_ok a (name x ++ r).
Proof.
  intros X C. cbn [name app content_ok event_ok]. split; [split; [eexists; reflexivity|intros E; vm_compute in E; discriminate E]|].
  split; [split; [exact X|reflexivity]|]. split; [exact I|exact C].
Qed.
Lemma letter x : x <> 62%N -> exists c y, [x] = c :: y /\ c <> 62%N.
Proof. intros N. exists x, []. split; [reflexivity|exact N]. Qed.

Example C27_example_whole : archive_ok two /\ whole two = true /\ exists ls s, calm ls /\
  steps sax ls (open (parse (archive_events two) false) [Skip; Read; Read]) = Some s /\ cl s = CGone /\
  texts s = [None; Some (in_root (txt "b") ++ txt "</unit>", [], 0); None].
Proof.
  split; [|split; [reflexivity|]].
  - split; [constructor|]. split; [exact root_ok|]. split; [reflexivity|]. split; [apply pre_gap; [exact blank_ok|constructor]|].
    split; [|split; [constructor|discriminate]]. constructor; [|constructor; [|constructor]]; (split; [|exact gap2_ok]); cbn [fst].
    + apply unit_of_ok; [apply name_balanced, bal_leaf; [exact I|constructor]|apply name_content; [apply letter; discriminate|]].
      split; [|exact I]. split; [apply letter; discriminate|reflexivity].
    + apply unit_of_ok; [constructor|exact I].
  - exists (caller_first sax 100 (open (parse (archive_events two) false) [Skip; Read; Read])). eexists.
    split; [apply caller_first_calm|]. split; [vm_compute; reflexivity|]. split; vm_compute; reflexivity.
Qed.
(** Broken off inside its second unit: the header is there (a skip), the body is not. *)
Example C27_example_malformed : archive_ok cut /\ whole cut = false /\ exists ls s, calm ls /\
  steps sax ls (open (parse (archive_events cut) true) [Read; Read; Read]) = Some s /\ cl s = CGone /\
  texts s = [Some (in_root (txt "a") ++ txt "<name>x</name></unit>", txt "x", 1); None; None].
Proof.
  split; [|split; [reflexivity|]].
  - split; [constructor|]. split; [exact root_ok|]. split; [reflexivity|]. split; [apply pre_gap; [exact blank_ok|constructor]|].
    split; [constructor; [|constructor]; split; [|exact gap2_ok]; cbn [fst]; rewrite <- (app_nil_r (name _)); apply unit_of_ok;
      [apply name_balanced; constructor|apply name_content; [apply letter; discriminate|exact I]]|].
    split; [|exact I]. split; [reflexivity|]. exists (txt "</unit>").
    change ([plain_text (txt "y")] ++ name (txt "z")) with (plain_text (txt "y") :: name (txt "z")). rewrite <- (app_nil_r (name _)). apply unit_of_ok.
    + apply bal_leaf; [exact I|]. apply name_balanced. constructor.
    + split; [split; [apply letter; discriminate|reflexivity]|]. apply name_content; [apply letter; discriminate|exact I].
  - exists (caller_first sax 100 (open (parse (archive_events cut) true) [Read; Read; Read])). eexists.
    split; [apply caller_first_calm|]. split; [vm_compute; reflexivity|]. split; vm_compute; reflexivity.
Qed.
Lemma solo_is_ok : solo_ok (solo [plain_text nl]).
Proof.
  split; [constructor|]. split; [exact I|]. split; [|split; [repeat constructor|]; split; [intros E; vm_compute in E; discriminate E|]; split; [|constructor]].
  - split; [exact root_ok|]. split; [|split; [|exact I]].
    + cbn [solo solo_element e_content s_text s_rest app]. apply bal_leaf; [exact I|]. rewrite <- (app_nil_r (name _)). apply name_balanced. constructor.
    + cbn [solo solo_element e_content s_text s_rest app]. split; [split; [apply letter; discriminate|reflexivity]|]. rewrite <- (app_nil_r (name _)). apply name_content; [apply letter; discriminate|exact I].
  - constructor; [intros E; vm_compute in E; discriminate E|]. constructor; [exact I|]. constructor; [intros E; vm_compute in E; discriminate E|constructor].
Qed.
Example C27_example_solo : solo_ok (solo [plain_text nl]) /\ exists ls s, calm ls /\
  steps sax ls (open (parse (solo_events (solo [plain_text nl])) false) [Read; Read]) = Some s /\ cl s = CGone /\
  map (option_map fst) (texts s) = [Some (root_start ++ txt ">" ++ nl ++ txt "<name>x</name></unit>", nl ++ txt "x"); None].
Proof.
  split; [exact solo_is_ok|]. exists (caller_first sax 100 (open (parse (solo_events (solo [plain_text nl])) false) [Read; Read])). eexists.
  split; [apply caller_first_calm|]. split; [vm_compute; reflexivity|]. split; vm_compute; reflexivity.
Qed.

(** Missing.  When parsing fails, the end is announced without the mutex: a caller that has just looked
    and is about to wait misses it, and waits for ever, here already in srcml_archive_read_open. *)
Theorem C27_malformed_refuted : exists d ls s, archive_ok d /\ whole d = false /\ calm ls /\
  steps sax ls (open (parse (archive_events d) true) []) = Some s /\ left_waiting s /\
  forall l s', step sax l s = Some s' -> l = SpuriousC.
Proof.
  exists (ArchiveDoc [] root_tag [] [] (CutBetween [])), [Caller; Parser; Parser; Parser; Caller]. eexists.
  split; [split; [constructor|]; split; [exact root_ok|]; split; [reflexivity|]; split; [constructor|]; split; [constructor|]; split; [constructor|exact I]|].
  split; [reflexivity|]. split; [repeat constructor; (left; reflexivity) || (right; reflexivity)|]. split; [vm_compute; reflexivity|].
  split; [split; [eexists; reflexivity|reflexivity]|]. intros [| | |] s' E; try discriminate E. reflexivity.
Qed.
Print Assumptions C27_malformed_refuted.
(** A well-formed document whose root is not a unit: nothing announces the end of the parse, and opening
    it never returns. *)
Theorem C27_other_root_refuted : exists evs ls s, calm ls /\
  steps sax ls (open (parse evs false) []) = Some s /\ left_waiting s /\
  forall l s', step sax l s = Some s' -> l = SpuriousC.
Proof.
  exists [XStart (bare_tag (txt "foo")); XEnd (txt "foo") (txt "</foo>")], [Parser; Caller; Caller]. eexists.
  split; [repeat constructor; (left; reflexivity) || (right; reflexivity)|]. split; [vm_compute; reflexivity|].
  split; [split; [eexists; reflexivity|reflexivity]|]. intros [| | |] s' E; try discriminate E. reflexivity.
Qed.
Print Assumptions C27_other_root_refuted.
(** A spurious wake-up is taken for an answer: a unit is returned without its body. *)
Theorem C27_spurious_refuted : exists ls s h,
  steps sax ls (open (parse (archive_events two) false) [Read]) = Some s /\ results s = [RUnit h None] /\
  length (filter (fun l => match l with SpuriousC => true | _ => false end) ls) = 1.
Proof.
  exists [Caller; Caller; Parser; Parser; Caller; Caller; Caller; Caller; Parser; Parser; Caller; Caller; Caller; Caller; SpuriousC; Caller]. eexists. eexists.
  split; [vm_compute; reflexivity|]. split; reflexivity.
Qed.
Print Assumptions C27_spurious_refuted.

(** * C39 *)
(** Every unit of an archive that is read holds the document's own text, for any calls, skips among them,
    and any interleaving. *)
Theorem C39_archive_partial : forall d err ops ls s,
  archive_ok d -> whole d = true -> calm ls ->
  steps sax ls (open (parse (archive_events d) err) ops) = Some s -> cl s = CGone ->
  exists bs, Forall2 (body_is (root_namespaces (a_root d))) (map fst (a_units d)) bs /\
    results s = reads (with_bodies (map fst (a_units d)) bs) ops.
Proof. exact archive_read. Qed.
Print Assumptions C39_archive_partial.
Theorem C39_solo_partial : forall d err ops ls s,
  solo_ok d -> calm ls ->
  steps sax ls (open (parse (solo_events d) err) ops) = Some s -> cl s = CGone ->
  exists b, solo_is d b /\ results s = reads [(t_attrs (s_tag d), Some b)] ops.
Proof. exact solo_read. Qed.
Print Assumptions C39_solo_partial.
(** The hypotheses are those of C27_example_whole and C27_example_solo; and those of [body_is] hold there. *)
Example C39_example : countable (name (txt "x") ++ [plain_text nl]) /\
  ~ contains (tag_head (e_tag (unit_of (txt "a") [])) ++ root_namespaces root_tag ++ tag_tail (e_tag (unit_of (txt "a") []))) (txt " url=").
Proof.
  split; [|apply not_contains; [discriminate|vm_compute; reflexivity]].
  constructor; [intros E; vm_compute in E; discriminate E|]. repeat constructor.
Qed.

(** Missing: documents outside [archive_ok] and [solo_ok] that any XML tool may produce. *)
Definition reads_as evs ops (out : list (option (bytes * bytes * nat))) : Prop := exists ls s, calm ls /\
  steps sax ls (open (parse evs false) ops) = Some s /\ cl s = CGone /\ texts s = out.
Lemma by_caller_first evs ops out s : steps sax (caller_first sax 200 (open (parse evs false) ops)) (open (parse evs false) ops) = Some s ->
  cl s = CGone -> texts s = out -> reads_as evs ops out.
Proof. intros S C T. exists (caller_first sax 200 (open (parse evs false) ops)), s. split; [apply caller_first_calm|]. split; [exact S|]. split; [exact C|exact T]. Qed.
(** A comment right after a start tag: the bracket of the tag is lost. *)
Theorem C39_comment_refuted :
  reads_as (archive_events (archive_with [(unit_of (txt "a") [XStart (bare_tag (txt "name")); cmt (txt "c"); XEnd (txt "name") (txt "</name>")], [])])) [Read]
    [Some (in_root (txt "a") ++ txt "<name<!--c--></name></unit>", [], 0)].
Proof. eapply by_caller_first; vm_compute; reflexivity. Qed.
Print Assumptions C39_comment_refuted.
(** A comment between a skipped unit and the next one gets into the next one's start tag. *)
Theorem C39_skipped_comment_refuted :
  let evs := archive_events (archive_with [(unit_of (txt "a") [], [cmt (txt "c")]); (unit_of (txt "b") [], [])]) in
  reads_as evs [Read; Read] [Some (in_root (txt "a") ++ txt "</unit>", [], 0); Some (in_root (txt "b") ++ txt "</unit>", [], 0)] /\
  reads_as evs [Skip; Read] [None; Some (txt "<!--c-xmlns=""" ++ SRC ++ txt """ -><unit filename=""b""></unit>", [], 0)].
Proof. split; eapply by_caller_first; vm_compute; reflexivity. Qed.
Print Assumptions C39_skipped_comment_refuted.
(** A unit without attributes gets the root's namespaces as text. *)
Theorem C39_no_attributes_refuted :
  reads_as (archive_events (archive_with [(Element (bare_tag (txt "unit")) (name (txt "x")) (txt "</unit>"), [])])) [Read]
    [Some (txt "<unit>xmlns=""" ++ SRC ++ txt """ <name>x</name></unit>", txt "x", 1)].
Proof. eapply by_caller_first; vm_compute; reflexivity. Qed.
Print Assumptions C39_no_attributes_refuted.
(** An archive without units is read as one unit. *)
Theorem C39_empty_archive_refuted :
  reads_as (archive_events (archive_with [])) [Read; Read] [Some (root_start ++ txt ">" ++ nl ++ nl ++ txt "</unit>", nl ++ nl, 0); None].
Proof. eapply by_caller_first; vm_compute; reflexivity. Qed.
Print Assumptions C39_empty_archive_refuted.
(** A unit element inside a lone unit ends it: two units are read. *)
Theorem C39_nested_refuted :
  reads_as (solo_events (SoloDoc [] root_tag [] (name (txt "x") ++ [XStart (Tag (txt "unit") None [] [] (txt "<unit") true); XEnd (txt "unit") (txt "/>")] ++ name (txt "y")) (txt "</unit>") [])) [Read; Read]
    [Some (root_start ++ txt "><name>x</name><unit/>", txt "x", 1); Some (txt "<name>y</name></unit>", txt "y", 1)].
Proof. eapply by_caller_first; vm_compute; reflexivity. Qed.
Print Assumptions C39_nested_refuted.
(** Raw character data beginning with '>' after an element: the thread dies of an exception. *)
Theorem C39_bracket_refuted : exists ls s,
  steps sax ls (open (parse (archive_events (archive_with [(unit_of (txt "a") (name (txt "x") ++ [plain_text (txt ">y")]), [])])) false) [Read]) = Some s /\
  left_waiting s.
Proof.
  exists (caller_first sax 200 (open (parse (archive_events (archive_with [(unit_of (txt "a") (name (txt "x") ++ [plain_text (txt ">y")]), [])])) false) [Read])).
  eexists. split; [vm_compute; reflexivity|]. split; [eexists; reflexivity|reflexivity].
Qed.
Print Assumptions C39_bracket_refuted.
(** After a processing instruction before the root of a lone unit, the srcML begins with the line end. *)
Theorem C39_instruction_refuted :
  reads_as (solo_events (SoloDoc [XPI (txt "<?a?>"); XSkip nl] root_tag [] (name (txt "x")) (txt "</unit>") [])) [Read]
    [Some (nl ++ root_start ++ txt "><name>x</name></unit>", txt "x", 1)].
Proof. eapply by_caller_first; vm_compute; reflexivity. Qed.
Print Assumptions C39_instruction_refuted.
(** The outer srcML of a lone unit with one namespace and nothing else loses the bracket. *)
Theorem C39_outer_refuted : exists b o, solo_ok (solo [plain_text nl]) /\ b = solo_body (solo [plain_text nl]) /\
  outer (with_body o b) = Ok (txt "<unit " ++ nl ++ txt "<name>x</name></unit>").
Proof. exists (solo_body (solo [plain_text nl])), (new_unit 0). split; [exact solo_is_ok|]. split; [reflexivity|]. vm_compute. reflexivity. Qed.
Print Assumptions C39_outer_refuted.

(** * C20 *)
(** In a lone unit the lines before its first element are not counted. *)
Theorem C20_solo_refuted :
  reads_as (solo_events (solo [plain_text (nl ++ nl)])) [Read] [Some (root_start ++ txt ">" ++ nl ++ nl ++ txt "<name>x</name></unit>", nl ++ nl ++ txt "x", 1)] /\
  line_count (nl ++ nl ++ txt "x") 3.
Proof.
  split; [eapply by_caller_first; vm_compute; reflexivity|]. exists [[]; []], (txt "x"). split; [|reflexivity].
  split; [reflexivity|]. split; [repeat constructor|]. constructor; [discriminate|constructor].
Qed.
Print Assumptions C20_solo_refuted.
