(** C27, C39: documents read through the two threads. *)
From Verif Require Import Base Text_Model Text_Spec Text_Proofs Text_Proofs2 Text_Proofs3 Api_Model Writer_Model Writer_Spec Writer_Proofs2 Handoff_Model Handoff_Spec Handoff_Proofs3 Sax_Model Sax_Spec Sax_Proofs Sax_Proofs4 Sax_Proofs6 Stream_Spec.

Lemma archive_delivered d err ops ls s : archive_ok d -> (whole d = false -> err = true) -> calm ls ->
  steps sax ls (open (parse (archive_events d) err) ops) = Some s ->
  prefix_of (results s) (reads (read_units d) ops) /\ fault s = false /\
  (cl s = CGone -> results s = reads (read_units d) ops /\ pa s = PExit).
Proof. intros O E C S. destruct (archive_begins d err O E) as [k [_ B]]. exact (delivered sax k _ _ _ _ _ _ B C S). Qed.
Lemma archive_not_stuck d err ops ls s : archive_ok d -> whole d = true -> calm ls ->
  steps sax ls (open (parse (archive_events d) err) ops) = Some s ->
  cl s = CGone \/ exists l s', (l = Caller \/ l = Parser) /\ step sax l s = Some s'.
Proof.
  intros O W C S. destruct (archive_begins d err O) as [k [_ B]]; [rewrite W; discriminate|]. rewrite W in B. exact (not_stuck sax k _ _ _ _ _ B C S).
Qed.
Lemma archive_stuck_only_lost d err ops ls s : archive_ok d -> (whole d = false -> err = true) -> calm ls ->
  steps sax ls (open (parse (archive_events d) err) ops) = Some s ->
  cl s = CGone \/ (exists l s', (l = Caller \/ l = Parser) /\ step sax l s = Some s') \/ left_waiting s.
Proof. intros O E C S. destruct (archive_begins d err O E) as [k [_ B]]. exact (stuck_only_lost sax k _ _ _ _ _ _ B C S). Qed.
Lemma read_units_length d : length (read_units d) <= length (a_units d) + 1.
Proof. unfold read_units. rewrite app_length, map_length. destruct (a_ending d); cbn [ending_units length]; lia. Qed.
Lemma archive_bounded d err ops ls s : archive_ok d -> (whole d = false -> err = true) -> calm ls ->
  steps sax ls (open (parse (archive_events d) err) ops) = Some s ->
  length ls <= 12 * length ops + 8 * length (a_units d) + 30.
Proof.
  intros O E C S. destruct (archive_begins d err O E) as [k [K B]]. pose proof (bounded sax k _ _ _ _ _ _ B C S) as L. pose proof (read_units_length d). lia.
Qed.
Lemma solo_delivered d err ops ls s : solo_ok d -> calm ls ->
  steps sax ls (open (parse (solo_events d) err) ops) = Some s ->
  prefix_of (results s) (reads [(t_attrs (s_tag d), Some (solo_body d))] ops) /\ fault s = false /\
  (cl s = CGone -> results s = reads [(t_attrs (s_tag d), Some (solo_body d))] ops /\ pa s = PExit).
Proof. intros O C S. destruct (solo_begins d err O) as [k [_ B]]. exact (delivered sax k _ _ _ _ _ _ B C S). Qed.
Lemma solo_not_stuck d err ops ls s : solo_ok d -> calm ls ->
  steps sax ls (open (parse (solo_events d) err) ops) = Some s ->
  (cl s = CGone \/ exists l s', (l = Caller \/ l = Parser) /\ step sax l s = Some s') /\ length ls <= 12 * length ops + 31.
Proof.
  intros O C S. destruct (solo_begins d err O) as [k [K B]]. split; [exact (not_stuck sax k _ _ _ _ _ B C S)|].
  pose proof (bounded sax k _ _ _ _ _ _ B C S) as L. cbn [length] in L. lia.
Qed.

(** * The bodies *)
Lemma count_no b x : no_byte b x -> count_byte b x = 0.
Proof.
  unfold count_byte. induction x as [|c x IH]; intros F; [reflexivity|]. cbn [filter]. destruct (N.eqb_spec b c) as [E|E]; [exfalso; apply (Forall_inv F); symmetry; exact E|].
  exact (IH (Forall_inv_tail F)).
Qed.
Lemma count_lines src : line_count src (count_byte 10 src + match src with [] => 0 | c :: t => if N.eqb (last (c :: t) 0%N) 10 then 0 else 1 end).
Proof.
  pose proof (loc_written_ok src) as L. unfold loc_written in L. replace (count_byte 10 src + match src with [] => 0 | c :: t => if N.eqb (last (c :: t) 0%N) 10 then 0 else 1 end) with (loc_written src); [exact L|].
  unfold loc_written. destruct src as [|c r]; [reflexivity|]. destruct (N.eqb (last (c :: r) 0%N) 10); lia.
Qed.
Lemma countable_lines evs : countable evs -> count_byte 10 (concat (map char_piece evs)) = count_byte 10 (content_text evs).
Proof.
  intros F. apply lines_of. eapply Forall_impl; [|exact F]. intros [t|nm raw|p raw text|raw value|raw value|raw|raw] K; try exact K. exact (count_no _ _ K).
Qed.
Lemma unit_body_is ns u : Sax_Spec.unit_ok u -> body_is ns u (unit_body ns u).
Proof.
  intros O. split; [reflexivity|]. split; [reflexivity|]. split; [|split].
  - intros F. cbn [unit_body b_src b_loc]. unfold content_lines. rewrite (countable_lines _ F). apply count_lines.
  - intros o. exact (unit_body_inner ns u o O).
  - intros Nc o. exact (unit_body_outer ns u o O Nc).
Qed.
Lemma solo_body_is d : solo_ok d -> solo_is d (solo_body d).
Proof.
  intros O. split; [reflexivity|]. split; [reflexivity|]. split; [|split].
  - intros F Z. cbn [solo_body b_src b_loc]. cbn [solo_element e_content].
    replace (count_byte 10 (concat (map char_piece (s_rest d)))) with (count_byte 10 (content_text (s_text d ++ s_rest d))); [apply count_lines|].
    change (s_text d ++ s_rest d) with (e_content (solo_element d)). rewrite <- (countable_lines _ F). cbn [solo_element e_content]. rewrite map_app, concat_app, count_byte_app, (count_no _ _ Z). reflexivity.
  - intros o. exact (solo_body_inner d o O).
  - intros p v more P Nc T N1 N2 o. exact (solo_body_outer d o p v more O P T N1 N2 Nc).
Qed.

Lemma whole_units d : whole d = true -> read_units d = with_bodies (map fst (a_units d)) (map (fun p => unit_body (root_namespaces (a_root d)) (fst p)) (a_units d)).
Proof.
  intros W. unfold read_units. unfold whole in W. destruct (a_ending d); try discriminate W. cbn [ending_units]. rewrite app_nil_r.
  unfold with_bodies. induction (a_units d) as [|p us IH]; [reflexivity|]. cbn [map combine fst snd]. f_equal. exact IH.
Qed.
Lemma archive_read d err ops ls s : archive_ok d -> whole d = true -> calm ls ->
  steps sax ls (open (parse (archive_events d) err) ops) = Some s -> cl s = CGone ->
  exists bs, Forall2 (body_is (root_namespaces (a_root d))) (map fst (a_units d)) bs /\ results s = reads (with_bodies (map fst (a_units d)) bs) ops.
Proof.
  intros O W C S G. exists (map (fun p => unit_body (root_namespaces (a_root d)) (fst p)) (a_units d)). split.
  - destruct O as [_ [_ [_ [_ [Us _]]]]]. induction (a_units d) as [|p us IH]; [constructor|]. cbn [map]. constructor; [apply unit_body_is; exact (proj1 (Forall_inv Us))|exact (IH (Forall_inv_tail Us))].
  - rewrite <- (whole_units d W). apply (archive_delivered d err ops ls s O); [rewrite W; discriminate|exact C|exact S|exact G].
Qed.
Lemma solo_read d err ops ls s : solo_ok d -> calm ls ->
  steps sax ls (open (parse (solo_events d) err) ops) = Some s -> cl s = CGone ->
  exists b, solo_is d b /\ results s = reads [(t_attrs (s_tag d), Some b)] ops.
Proof. intros O C S G. exists (solo_body d). split; [exact (solo_body_is d O)|]. apply (solo_delivered d err ops ls s O C S). exact G. Qed.

(** Schedules: the caller first, or the parser first. *)
Fixpoint caller_first {X H B} (M : machine X H B) n (s : sys X H B) : list label :=
  match n with
  | 0 => []
  | S n => match step M Caller s with
           | Some s' => Caller :: caller_first M n s'
           | None => match step M Parser s with Some s' => Parser :: caller_first M n s' | None => [] end
           end
  end.
Lemma caller_first_calm {X H B} (M : machine X H B) n : forall s, calm (caller_first M n s).
Proof.
  induction n as [|n IH]; intros s; [constructor|]. cbn [caller_first]. destruct (step M Caller s) as [s'|]; [constructor; [left; reflexivity|apply IH]|].
  destruct (step M Parser s) as [s'|]; [constructor; [right; reflexivity|apply IH]|constructor].
Qed.
