(** Inputs that are URLs (C63). *)
From Verif Require Import Base Text_Model Download_Model Download_Spec Download_Proofs Download_Proofs2 Download_Proofs3 Download_Examples.
Local Open Scope N_scope.

(** In every run, what is read and what is in the pipe is a beginning of the content of the input; at the end of the pipe everything that arrived has
    been passed on, and that is the whole content if the transfer is complete. *)
Theorem C63_bytes : forall us r ls s i d t, reached us r ls s -> nth_error us i = Some d -> nth_error (threads s) i = Some t ->
  starts_with (got t ++ pipe t) (arriving (blocks d)) /\ starts_with (arriving (blocks d)) (content d) /\ (pc t = WEnd -> got t ++ pipe t = arriving (blocks d)) /\
  (complete d = true -> arriving (blocks d) = content d).
Proof. exact bytes_arrive. Qed.
Print Assumptions C63_bytes.
(** Without spurious wake-ups, and if each input is read to its end, an input is accepted if its transfer is complete, and only if the server answered
    with success; and the reader gets all that arrived. *)
Theorem C63_accepted_partial : forall us r ls s, calm ls -> reached us r ls s ->
  (forall i b d, nth_error (results s) i = Some b -> nth_error us i = Some d -> (complete d = true -> b = true) /\ (b = true -> answers (blocks d) (succeeds d) = true)) /\
  (cl s = MEnd -> length (results s) = length us) /\
  (forall i d t, (i < index s)%nat -> nth_error (results s) i = Some true -> nth_error us i = Some d -> nth_error (threads s) i = Some t ->
     got t = arriving (blocks d) /\ pipe t = [] /\ (complete d = true -> got t = content d)).
Proof. exact calm_answers. Qed.
Print Assumptions C63_accepted_partial.
(** Every run is finite. *)
Theorem C63_bounded : forall us r ls s, reached us r ls s -> (length ls <= list_sum (map (fun d => 4 * length (blocks d) + 9) us) + 1)%nat.
Proof. exact run_bound. Qed.
Print Assumptions C63_bounded.
(** It ends with all inputs done, or in the wait for a download; *)
Theorem C63_ends : forall us r ls s, (0 < r)%nat -> reached us r ls s -> stuck s -> cl s = MEnd \/ exists k, cl s = MWait k.
Proof. exact stuck_waits. Qed.
Print Assumptions C63_ends.
(** but not in the wait if this began before the download had anything to say. *)
Theorem C63_woken_partial : forall us r ls s k d t ls' s', reached us r ls s -> cl s = MWait k -> nth_error us k = Some d -> nth_error (threads s) k = Some t -> pc t = WPerform (blocks d) (succeeds d) ->
  steps ls' s = Some s' -> stuck s' -> cl s' <> MWait k.
Proof. exact waits_in_time. Qed.
Print Assumptions C63_woken_partial.
(** A download that is over before, or has filled the pipe, leaves the program waiting for ever. *)
Theorem C63_lost_refuted : (exists s, calm early_run /\ reached [good] 10 early_run s /\ stuck s /\ cl s = MWait 0 /\ complete good = true) /\
  (exists s, calm full_run /\ reached [good] 1 full_run s /\ stuck s /\ cl s = MWait 0 /\ complete good = true).
Proof. exact (conj early full). Qed.
Print Assumptions C63_lost_refuted.
(** A spurious wake-up refuses an input that is there. *)
Theorem C63_spurious_refuted : exists s, reached [good] 10 [Main; Main; Spurious; Main; Main] s /\ cl s = MEnd /\ results s = [false] /\ complete good = true.
Proof. exact spurious. Qed.
Print Assumptions C63_spurious_refuted.
(** A transfer that is broken off is read as if it were whole, or refused, depending on the order of steps. *)
Theorem C63_broken_off_refuted : exists s s', calm broken_run /\ reached [broken] 10 broken_run s /\ cl s = MEnd /\ results s = [true] /\ map got (threads s) = [txt "abc"] /\ content broken = txt "abcd" /\
  calm broken_run' /\ reached [broken] 10 broken_run' s' /\ cl s' = MEnd /\ results s' = [false].
Proof. exact broken_off. Qed.
Print Assumptions C63_broken_off_refuted.
(** An input that is not read to its end answers for the next, which is missing. *)
Theorem C63_next_input_refuted : exists s, reached [good; missing] 10 next_run s /\ results s = [true; true] /\ cl s = MRead 1 /\ answers (blocks missing) (succeeds missing) = false.
Proof. exact next_input. Qed.
Print Assumptions C63_next_input_refuted.
(** A transfer by ftp is refused, as its code of success is not 200. *)
Theorem C63_ftp_refuted : forall r ls s b, calm ls -> reached [ftp] r ls s -> nth_error (results s) 0 = Some b -> b = false.
Proof. exact ftp_refused. Qed.
Print Assumptions C63_ftp_refuted.
Example C63_example : exists s, calm plain_run /\ reached [good; missing] 10 plain_run s /\ cl s = MEnd /\ results s = [true; false] /\ map got (threads s) = [txt "abc"; []] /\
  complete good = true /\ content good = txt "abc" /\ complete missing = false.
Proof. exact plain. Qed.
Example C63_example_waits : exists s t, reached [good] 10 [Main; Main] s /\ cl s = MWait 0 /\ nth_error (threads s) 0 = Some t /\ pc t = WPerform (blocks good) (succeeds good).
Proof. eexists _, _. split; [vm_compute; reflexivity|]. repeat split. Qed.
Example C63_example_ftp : exists s, calm ([Main; Main] ++ ws 0 3 ++ [Main; Main]) /\ reached [ftp] 10 ([Main; Main] ++ ws 0 3 ++ [Main; Main]) s /\ results s = [false].
Proof. eexists. split; [apply calm_b; reflexivity|]. split; [vm_compute; reflexivity|]. reflexivity. Qed.
