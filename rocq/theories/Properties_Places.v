(** Property C61: positions of elements, with --position.
    [emits o (construct src) c s]: a parse of the tokens [src] made the calls [c] on the token buffers,
    and came to the state [s]; [play w c (first_places w) = Ok d]: [d] is what the bookkeeping of
    positions then has; [w k] is the line and column of what comes after [k] bytes of source.
    Vocabulary: Places_Spec.v. *)
From Verif Require Import Base Parser_Model Parser_Spec Parser_Proofs Parser_Proofs2 Places_Model Places_Spec
  Places_Proofs Places_Proofs2 Places_Proofs3 Places_Proofs4 Places_Proofs5 Places_Proofs6.

(** Every parse on which the parser's own code ensures what is assumed of it makes such calls. *)
Theorem C61_calls : forall o rs src cs l e s, pull o rs cs (construct src) = (l, e, s) -> log s = [] ->
  exists c, emits o (construct src) c s.
Proof. exact parse_emits. Qed.
Print Assumptions C61_calls.

(** Full statement: every start tag is given the place where the source text after it begins, and
    every end tag the place before the one where the source text after it begins.
    Proved, provided that look-aheads begin and end no elements: the bookkeeping never takes from an
    empty stack; every start tag has a position, that one (but [f = false]: an element begun without
    moving skipped text before it, whose position comes after that text); every end tag has an end,
    that one if [b], that is, if since the last token was consumed there were no look-aheads,
    directives or elements begun with skipped text moved before them.  Comments always have [b].
    Once no more than the unit is open, as nextToken waits for, every start tag has its end. *)
Theorem C61_positions_partial : forall o w src c s, emits o (construct src) c s -> log s = [] -> quiet c ->
  exists d, play w c (first_places w) = Ok d /\
  (forall a t b, everything s = a ++ t :: b -> o_cat t = Kstart ->
     exists e f p, kept (p_started d) (o_id t) = Some (e, f, p) /\
       (is_type e STYPEPREV = false -> f = true -> p = w (length (text_before a))) /\
       (is_type e STYPEPREV = false -> f = false -> exists k, length (text_before a) <= k /\ p = w k)) /\
  (forall a t b, everything s = a ++ t :: b -> o_cat t = Kend ->
     exists n e b q, o_of t = Some n /\ kept (p_ended d) n = Some (e, b, q) /\
       (is_type e STYPEPREV = false -> b = true -> q = before (w (length (text_before a))))) /\
  (length (p_ends d) <= 1 -> forall t, In t (everything s) -> o_cat t = Kstart ->
     p_ends d = [Some (o_id t)] \/ exists x, kept (p_ended d) (o_id t) = Some x).
Proof. exact places_all. Qed.
Print Assumptions C61_positions_partial.

(** If only plain calls begin elements, every start tag has its place. *)
Theorem C61_plain : forall o w src c s, emits o (construct src) c s -> log s = [] -> quiet c -> Forall plain c ->
  exists d, play w c (first_places w) = Ok d /\
  forall a t b, everything s = a ++ t :: b -> o_cat t = Kstart ->
  exists e, kept (p_started d) (o_id t) = Some (e, true, w (length (text_before a))).
Proof. exact plain_starts. Qed.
Print Assumptions C61_plain.

(** The repeated type of a second declarator begins where the last type did. *)
Theorem C61_repeated : forall o w src c s, emits o (construct src) c s -> log s = [] -> quiet c ->
  forall d, play w c (first_places w) = Ok d ->
  forall a n p r, p_started d = a ++ (n, (STYPEPREV, true, p)) :: r -> p = last_type r.
Proof. exact repeated_type. Qed.
Print Assumptions C61_repeated.

(** What is printed for an element with text from [a] to [b]: its first place and the one before the
    place after it; nothing if it is empty. *)
Theorem C61_printed : forall w a b, in_order w ->
  addPosition (w a) (before (w b)) = if a <? b then Some (w a, before (w b)) else None.
Proof. exact printed. Qed.
Print Assumptions C61_printed.

(** * Examples *)
Definition op := POpts true false.
Definition tok n c := LTok (Lsrc n) [c].
Definition got (r : res) : ps := match r with Ret s => s | Exn _ s => s | _ => construct [] end.
Definition one_line (k : nat) : point := (1, Z.of_nat k + 1)%Z.
Lemma one_line_order : in_order one_line.
Proof. intros a b H. right. cbn. split; [reflexivity|lia]. Qed.

(** "a /*x*/b;": a statement around a name, a comment, a name begun without moving skipped text, and a
    terminator. *)
Definition srcp := [tok 1 97; LTok (Lws 0) [32%N]; LTok (Lopen Cblock) [47%N; 42%N]; LTok (Lws 2) [120%N];
  LTok (Lclose Cblock) [42%N; 47%N]; tok 2 98; tok 3 59].
Definition p1 := startNewMode MODE_STATEMENT (construct srcp).
Definition p2 := got (startElement (Ename 7) p1).
Definition p3 := got (startElement (Ename 8) p2).
Definition p4 := take p3.
Definition p5 := got (skip_one (nth 1 srcp (tok 0 0%N)) p4).
Definition p6 := got (skip_one (nth 2 srcp (tok 0 0%N)) p5).
Definition p7 := got (skip_one (nth 3 srcp (tok 0 0%N)) p6).
Definition p8 := got (skip_one (nth 4 srcp (tok 0 0%N)) p7).
Definition p9 := endElement p8.
Definition p10 := got (startNoSkipElement (Ename 9) p9).
Definition p11 := take p10.
Definition p12 := endElement p11.
Definition p13 := take p12.
Definition p14 := endElement p13.
Definition callsp : list acall :=
  [Cstart (Ename 7) true; Cstart (Ename 8) true; Cconsume (Some (tok 1 97)) false;
   Cskip (LTok (Lws 0) [32%N]); Cskip (LTok (Lopen Cblock) [47%N; 42%N]); Cskip (LTok (Lws 2) [120%N]);
   Cskip (LTok (Lclose Cblock) [42%N; 47%N]); Cend (Ename 8); Cstart (Ename 9) false; Cconsume (Some (tok 2 98)) false;
   Cend (Ename 9); Cconsume (Some (tok 3 59)) false; Cend (Ename 7)].
Ltac calls H := match goal with |- emits ?o ?s (?c :: ?l) ?s' => change (c :: l) with ([c] ++ l); eapply (m_seq o s [c]); [H|] end.
Lemma m_end_plain o e s : (exists t r n k, modes s = t :: r /\ opened t = (n, e) :: k /\ issues_empty t = false) ->
  emits o s [Cend e] (endElement s).
Proof. intros (t & r & n & k & M & O & I). pose proof (m_end o t r n e k s M O) as H. rewrite I in H. exact H. Qed.
Ltac ending := apply m_end_plain; eexists; eexists; eexists; eexists; split; [vm_compute; reflexivity|split; vm_compute; reflexivity].
Lemma emitsp : emits op (construct srcp) callsp p14.
Proof.
  change callsp with ([] ++ callsp). eapply m_seq; [apply m_silent, (q_new MODE_STATEMENT)|]. fold p1. unfold callsp.
  calls ltac:(apply (m_start op (Ename 7) p1 p2); vm_compute; reflexivity).
  calls ltac:(apply (m_start op (Ename 8) p2 p3); vm_compute; reflexivity).
  calls ltac:(apply (m_take op p3); intros F; vm_compute in F; discriminate F).
  calls ltac:(apply (m_skip op (LTok (Lws 0) [32%N]) (skipn 2 srcp) p4 p5); vm_compute; reflexivity).
  calls ltac:(apply (m_skip op (LTok (Lopen Cblock) [47%N; 42%N]) (skipn 3 srcp) p5 p6); vm_compute; reflexivity).
  calls ltac:(apply (m_skip op (LTok (Lws 2) [120%N]) (skipn 4 srcp) p6 p7); vm_compute; reflexivity).
  calls ltac:(apply (m_skip op (LTok (Lclose Cblock) [42%N; 47%N]) (skipn 5 srcp) p7 p8); vm_compute; reflexivity).
  calls ltac:(instantiate (1 := p9); unfold p9; ending).
  calls ltac:(apply (m_start_ns op (Ename 9) p9 p10); vm_compute; reflexivity).
  calls ltac:(apply (m_take op p10); intros F; vm_compute in F; discriminate F).
  calls ltac:(instantiate (1 := p12); unfold p12; ending).
  calls ltac:(apply (m_take op p12); intros F; vm_compute in F; discriminate F).
  unfold p14. ending.
Qed.

Definition known (w : nat -> point) (c : list acall) : list (nat * point) * list (nat * point) :=
  match play w c (first_places w) with
  | Ok d => (map (fun x => let '(n, (_, _, p)) := x in (n, p)) (p_started d), map (fun x => let '(n, (_, _, p)) := x in (n, p)) (p_ended d))
  | UB => ([], [])
  end.
(** The unit 0, the statement 2, the name "a" 3, the comment 6, the name "b" 11 (whose tags come before
    the comment, as it was begun without moving skipped text, but whose position comes after it). *)
Definition tags (l : list otok) : list (bytes + nat) :=
  map (fun t => match o_cat t with Kstart => inr (o_id t) | Kend => inr (o_id t) | _ => inl (o_text t) end) l.
(** The unit 0, the statement 2, the name "a" 3, the comment 6, the name "b" 12, whose start tag comes
    before the comment, but whose position after it. *)
Example C61_example : log p14 = [] /\ quiet callsp /\
  map (fun t => (o_id t, o_cat t, o_of t, o_text t)) (everything p14) =
    [(0, Kstart, None, []); (1, Kempty, None, []); (2, Kstart, None, []); (3, Kstart, None, []);
     (4, Ktext, None, txt "a"); (11, Kend, Some 3, []); (12, Kstart, None, []); (5, Ktext, None, txt " ");
     (6, Kstart, None, []); (7, Ktext, None, txt "/*"); (8, Ktext, None, txt "x"); (9, Ktext, None, txt "*/");
     (10, Kend, Some 6, []); (13, Ktext, None, txt "b"); (14, Kend, Some 12, []); (15, Ktext, None, txt ";");
     (16, Kend, Some 2, [])] /\
  exists s e, known one_line callsp = (s, e) /\
    s = [(12, (1, 8)%Z); (6, (1, 3)%Z); (3, (1, 1)%Z); (2, (1, 1)%Z); (0, (1, 1)%Z)] /\
    e = [(2, (1, 9)%Z); (12, (1, 8)%Z); (3, (1, 1)%Z); (6, (1, 7)%Z)].
Proof.
  split; [vm_compute; reflexivity|]. split; [repeat (apply quiet_other; [discriminate|discriminate|]); apply quiet_nil|].
  split; [vm_compute; reflexivity|]. eexists. eexists. split; [vm_compute; reflexivity|]. split; reflexivity.
Qed.

(** * Where it fails *)
(** A look-ahead after an element's last token: "ab", the element around "a" ends, it says, where "b"
    does. *)
Definition srcq := [tok 1 97; tok 2 98].
Definition q1 := startNewMode MODE_STATEMENT (construct srcq).
Definition q2 := got (startElement (Ename 7) q1).
Definition q3 := take q2.
Definition q4 := rewind q3 (take (mark q3)).
Definition q5 := endElement q4.
Definition callsq := [Cstart (Ename 7) true; Cconsume (Some (tok 1 97)) false; Cguess [Cconsume (Some (tok 2 98)) false]; Cend (Ename 7)].
Lemma emitsq : emits op (construct srcq) callsq q5.
Proof.
  change callsq with ([] ++ callsq). eapply m_seq; [apply m_silent, (q_new MODE_STATEMENT)|]. fold q1. unfold callsq.
  calls ltac:(apply (m_start op (Ename 7) q1 q2); vm_compute; reflexivity).
  calls ltac:(apply (m_take op q2); intros F; vm_compute in F; discriminate F).
  calls ltac:(apply (m_guess op [Cconsume (Some (tok 2 98)) false] q3 (take (mark q3))); apply (m_take op (mark q3)); intros F; vm_compute in F; discriminate F).
  fold q4. unfold q5. ending.
Qed.
Theorem C61_end_after_look_ahead_refuted : exists o src c s d, emits o (construct src) c s /\ log s = [] /\ quiet c /\
  play one_line c (first_places one_line) = Ok d /\
  exists a t b n e f, everything s = a ++ t :: b /\ o_cat t = Kend /\ o_of t = Some n /\
    text_before a = txt "a" /\ kept (p_ended d) n = Some (e, f, (1, 2)%Z) /\ before (one_line (length (text_before a))) = (1, 1)%Z.
Proof.
  exists op, srcq, callsq, q5. eexists. split; [exact emitsq|]. split; [vm_compute; reflexivity|].
  split. { unfold callsq. apply quiet_other; [discriminate|discriminate|]. apply quiet_other; [discriminate|discriminate|].
    apply quiet_guess; [reflexivity|]. apply quiet_other; [discriminate|discriminate|]. apply quiet_nil. }
  split; [vm_compute; reflexivity|].
  exists (firstn 4 (everything q5)), (nth 4 (everything q5) (OTok 0 TEof Ktext [] None)), []. eexists. eexists. eexists.
  repeat (split; [vm_compute; reflexivity|]). vm_compute. reflexivity.
Qed.
Print Assumptions C61_end_after_look_ahead_refuted.

(** A directive after a statement: "a#d", the statement around "a" ends, it says, where the directive
    does. *)
Definition srcr := [tok 1 97; LTok Lpreproc [35%N]; tok 3 100].
Definition r1 := startNewMode MODE_STATEMENT (construct srcr).
Definition r2 := got (startElement (Ename 7) r1).
Definition r3 := take r2.
Definition r4 := startNewMode MODE_PREPROC (enter r3).
Definition r5 := got (startElement (Ename 9) r4).
Definition r6 := take r5.
Definition r7 := take r6.
Definition r8 := endElement r7.
Definition r9 := set_modes (tl (modes r8)) r8.
Definition r10 := leave_region r3 r9.
Definition r11 := endElement r10.
Definition inside := [Cstart (Ename 9) true; Cconsume (Some (LTok Lpreproc [35%N])) false; Cconsume (Some (tok 3 100)) false; Cend (Ename 9)].
Definition callsr := [Cstart (Ename 7) true; Cconsume (Some (tok 1 97)) false; Cregion inside; Cend (Ename 7)].
Lemma emits_inside : emits op (enter r3) inside r9.
Proof.
  change inside with ([] ++ inside). eapply m_seq; [apply m_silent, (q_new MODE_PREPROC)|]. fold r4. unfold inside.
  calls ltac:(apply (m_start op (Ename 9) r4 r5); vm_compute; reflexivity).
  calls ltac:(apply (m_take op r5); intros F; vm_compute in F; discriminate F).
  calls ltac:(apply (m_take op r6); intros F; vm_compute in F; discriminate F).
  change [Cend (Ename 9)] with ([Cend (Ename 9)] ++ []). eapply (m_seq op _ _ r8); [unfold r8; fold r7; ending|].
  apply m_silent. eapply (q_pop (hd (MState 0 0 0 []) (modes r8))); vm_compute; reflexivity.
Qed.
Lemma emitsr : emits op (construct srcr) callsr r11.
Proof.
  change callsr with ([] ++ callsr). eapply m_seq; [apply m_silent, (q_new MODE_STATEMENT)|]. fold r1. unfold callsr.
  calls ltac:(apply (m_start op (Ename 7) r1 r2); vm_compute; reflexivity).
  calls ltac:(apply (m_take op r2); intros F; vm_compute in F; discriminate F).
  calls ltac:(eapply (m_region op _ inside r3 r9); [vm_compute; reflexivity|exact emits_inside]).
  fold r10. unfold r11. ending.
Qed.
Theorem C61_end_after_directive_refuted : exists o src c s d, emits o (construct src) c s /\ log s = [] /\ quiet c /\
  play one_line c (first_places one_line) = Ok d /\
  exists a t b n e f, everything s = a ++ t :: b /\ o_cat t = Kend /\ o_of t = Some n /\
    text_before a = txt "a" /\ kept (p_ended d) n = Some (e, f, (1, 3)%Z) /\ before (one_line (length (text_before a))) = (1, 1)%Z.
Proof.
  exists op, srcr, callsr, r11. eexists. split; [exact emitsr|]. split; [vm_compute; reflexivity|].
  split. { unfold callsr. apply quiet_other; [discriminate|discriminate|]. apply quiet_other; [discriminate|discriminate|].
    apply quiet_region; [repeat (apply quiet_other; [discriminate|discriminate|]); apply quiet_nil|].
    apply quiet_other; [discriminate|discriminate|]. apply quiet_nil. }
  split; [vm_compute; reflexivity|].
  exists (firstn 4 (everything r11)), (nth 4 (everything r11) (OTok 0 TEof Ktext [] None)), (skipn 5 (everything r11)). eexists. eexists. eexists.
  repeat (split; [vm_compute; reflexivity|]). vm_compute. reflexivity.
Qed.
Print Assumptions C61_end_after_directive_refuted.
