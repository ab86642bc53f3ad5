(** Properties C25 and C26: the client's queues and its limit on open files, over all interleavings.
    [steps c ls (start inputs) = Some s]: with the settings [c], the client reaches the state [s] from
    the inputs by the transitions [ls].  Vocabulary: Queue_Spec.v, Limiter_Spec.v. *)
From Verif Require Import Base Queue_Model Queue_Spec Queue_Proofs Queue_Proofs2 Queue_Proofs3
  Limiter_Model Limiter_Spec Limiter_Proofs.
From Coq Require Import Permutation.

(** * C25 *)
(** Whatever the parsing of an input meets, it reaches the write queue exactly once, with its status. *)
Theorem C25_once_queued : forall r,
  concat (map (fun e => match e with Push z => [z] | _ => [] end) (srcml_consume (r_status r) (r_answers r))) = [outcome_of r].
Proof. exact consume_pushes. Qed.
Print Assumptions C25_once_queued.

(** At any moment of any execution, what has been written is the first inputs, in the order given, each
    once and with its status; the units counted are the successes among them. *)
Theorem C25_in_order_partial : forall inputs c ls s,
  0 < threads c -> ordered c = true -> steps c ls (start inputs) = Some s ->
  prefix_of (written s) (expected inputs) /\ total s = length (filter (fun e => Z.eqb (snd e) 0) (written s)).
Proof. exact write_prefix. Qed.
Print Assumptions C25_in_order_partial.

(** When the run is over, all of them have been; also when the output is unordered, in some order. *)
Theorem C25_all_written_partial : forall inputs c ls s,
  0 < threads c -> steps c ls (start inputs) = Some s -> over s ->
  Permutation (written s) (expected inputs) /\ (ordered c = true -> written s = expected inputs) /\
  total s = successes inputs.
Proof. exact write_all. Qed.
Print Assumptions C25_all_written_partial.

(** The run ends: it never gets stuck, an execution has at most so many transitions, apart from
    spurious wake-ups of the writer, and from everywhere the end can be reached. *)
Theorem C25_never_stuck_partial : forall inputs c ls s,
  0 < threads c -> steps c ls (start inputs) = Some s -> ~ over s -> exited s = false ->
  exists l s', l <> Queue_Model.Spurious /\ step c l s = Some s'.
Proof. exact no_deadlock. Qed.
Print Assumptions C25_never_stuck_partial.
Theorem C25_bounded : forall inputs c ls s,
  steps c ls (start inputs) = Some s -> length ls <= 9 * length inputs + 7 + 2 * spurious ls.
Proof. exact run_length. Qed.
Print Assumptions C25_bounded.
Theorem C25_can_finish_partial : forall inputs c ls s,
  0 < threads c -> steps c ls (start inputs) = Some s ->
  exists ls' s', steps c ls' s = Some s' /\ (over s' \/ exited s' = true).
Proof. exact can_finish. Qed.
Print Assumptions C25_can_finish_partial.

(** Three inputs, two threads: the second fails before it is scheduled, the third is parsed before the
    first, and the writer waits for the first. *)
Definition parsed z := Answers true None (Some 0%Z) None (Some z).
Definition three := [Req 1 0 (parsed 0); Req 2 5 (parsed 0); Req 3 0 (parsed 4)].
Definition two_threads := Conf 2 true.
Definition early := [Main; Writer; Take; Main; Main; Writer; Main; Take; Task 1; Task 1; Writer].
Definition late := [Task 0; Task 0; Writer; Writer; Writer; Writer; Writer; Writer; Main; Task 0; Task 0; Main; Main; Writer; Main].
Example C25_example : exists s s', steps two_threads early (start three) = Some s /\ written s = [] /\ length (queue s) = 2 /\ ~ over s /\ exited s = false /\
  steps two_threads late s = Some s' /\ over s' /\ total s' = 1 /\
  map (fun e => (fst (fst e), r_name (snd (fst e)), snd e)) (written s') = [(1, 1, 0%Z); (2, 2, 5%Z); (3, 3, 4%Z)].
Proof.
  eexists. eexists. split; [vm_compute; reflexivity|]. split; [reflexivity|]. split; [reflexivity|]. split; [discriminate|]. split; [reflexivity|].
  split; [vm_compute; reflexivity|]. split; [reflexivity|]. split; reflexivity.
Qed.

(** Missing: without a parsing thread (-j 0) nothing is parsed, and nothing is written; and with an
    input that failed before it was scheduled, the client waits for ever. *)
Theorem C25_no_threads_refuted : exists ls s,
  steps (Conf 0 true) ls (start [Req 1 0 (parsed 0)]) = Some s /\ over s /\ written s = [] /\ expected [Req 1 0 (parsed 0)] <> [].
Proof. exists [Main; Main; Main; Main; Writer; Main]. eexists. split; [vm_compute; reflexivity|]. split; [reflexivity|]. split; [reflexivity|discriminate]. Qed.
Print Assumptions C25_no_threads_refuted.
Theorem C25_no_threads_stuck_refuted : exists ls s,
  steps (Conf 0 true) ls (start [Req 1 0 (parsed 0); Req 2 5 (parsed 0)]) = Some s /\ ~ over s /\ exited s = false /\
  forall l s', step (Conf 0 true) l s = Some s' -> l = Queue_Model.Spurious.
Proof.
  exists [Main; Main; Main; Main; Main; Main; Writer]. eexists. split; [vm_compute; reflexivity|]. split; [discriminate|]. split; [reflexivity|].
  intros [| |i| |] s' E; try discriminate E; [|reflexivity]. unfold step, task_step in E. cbn in E. destruct i; discriminate E.
Qed.
Print Assumptions C25_no_threads_stuck_refuted.
(** An input whose parse reports an invalid argument ends the process, whatever is still to be written:
    here the first input, parsed already, never is. *)
Theorem C25_exit_refuted : exists ls s,
  steps two_threads ls (start [Req 1 0 (parsed 0); Req 2 0 (parsed 2)]) = Some s /\ exited s = true /\ written s = [] /\
  forall l s', step two_threads l s <> Some s'.
Proof.
  exists [Main; Main; Take; Take; Task 0; Task 1; Task 1; Task 1]. eexists. split; [vm_compute; reflexivity|]. split; [reflexivity|].
  split; [reflexivity|]. intros l s' E. discriminate E.
Qed.
Print Assumptions C25_exit_refuted.

(** * C26 *)
(** [lsteps ms (lstart progs) = Some s]: threads doing [progs] reach [s] by the moves [ms]. *)
(** At most 201 files are open at any time (the limit is 200, see below). *)
Theorem C26_limit_partial : forall progs ms s,
  lsteps ms (lstart progs) = Some s -> (open_files s <= 201)%Z.
Proof. exact limit. Qed.
Print Assumptions C26_limit_partial.
(** When every file opened has been closed, none is counted. *)
Theorem C26_back_to_zero : forall progs ms s,
  lsteps ms (lstart progs) = Some s -> all_done s -> balance (concat progs) = 0%Z -> open_files s = 0%Z.
Proof. exact count_back. Qed.
Print Assumptions C26_back_to_zero.
(** Nobody waits for nothing: if a thread waits and no thread can go on, the limit is reached. *)
Theorem C26_waits_only_when_full : forall progs ms s,
  lsteps ms (lstart progs) = Some s -> waiting s -> ~ can_move s -> open_files s = 201%Z.
Proof. exact waits_only_full. Qed.
Print Assumptions C26_waits_only_when_full.
(** Any number of threads that close each file before opening the next are never stuck, and so all get
    through: executions are bounded, apart from spurious wake-ups. *)
Theorem C26_admitted_partial : forall progs ms s,
  Forall one_at_a_time progs -> lsteps ms (lstart progs) = Some s -> all_done s \/ can_move s.
Proof. exact never_stuck. Qed.
Print Assumptions C26_admitted_partial.
Theorem C26_bounded : forall progs ms s, lsteps ms (lstart progs) = Some s ->
  length ms <= 2 * length (concat progs) + length progs + 2 * lspurious ms.
Proof. exact run_bound. Qed.
Print Assumptions C26_bounded.

(** 202 threads opening, the last of which has to wait, until another closes its file. *)
Definition crowd := repeat [Open; Close] 202.
Definition all_open := map (fun i => Act i 0) (seq 0 202).
Example C26_example : exists s s', Forall one_at_a_time crowd /\ lsteps all_open (lstart crowd) = Some s /\
  nth_error (ths s) 201 = Some (Thread [Open; Close] true) /\
  lsteps (Act 7 201 :: Act 201 0 :: map (fun i => Act i 0) (seq 0 7 ++ seq 8 194)) s = Some s' /\
  all_done s' /\ balance (concat crowd) = 0%Z.
Proof.
  eexists. eexists. split; [apply Forall_forall; intros p H; apply repeat_spec in H; subst p; repeat constructor|].
  split; [vm_compute; reflexivity|]. split; [reflexivity|]. split; [vm_compute; reflexivity|]. split; [repeat constructor|reflexivity].
Qed.

(** Missing: one more than the limit is admitted. *)
Theorem C26_one_more_refuted : exists progs ms s,
  Forall one_at_a_time progs /\ lsteps ms (lstart progs) = Some s /\ (open_files s > MAX_OPEN_FILES)%Z.
Proof.
  exists crowd, all_open. eexists. split; [apply Forall_forall; intros p H; apply repeat_spec in H; subst p; repeat constructor|].
  split; [vm_compute; reflexivity|reflexivity].
Qed.
Print Assumptions C26_one_more_refuted.

(** And the client itself does not close each file before opening the next: the main thread opens an
    archive per srcML input, closed when the writer is through with its units (a request keeps its
    archive); the writer opens one per unit (srcml_write.cpp:94) with --to-dir.  From 201 inputs on, the
    writer may wait for files which only it would close. *)
Definition reader (n : nat) := concat (repeat [Open; Give] n).
Definition to_dir (n : nat) := concat (repeat [Receive; Open; Close; Close] n).
Theorem C26_to_dir_refuted : exists ms s,
  lsteps ms (lstart [reader 201; to_dir 201]) = Some s /\ balance (concat [reader 201; to_dir 201]) = 0%Z /\
  ~ all_done s /\ ~ can_move s.
Proof.
  exists (repeat (Act 0 0) 402 ++ [Act 1 0; Act 1 0]). eexists. split; [vm_compute; reflexivity|]. split; [vm_compute; reflexivity|]. split.
  - intros F. pose proof (Forall_inv (Forall_inv_tail F)) as Q. discriminate Q.
  - intros [i [j [s' E]]]. destruct i as [|[|i]]; [discriminate E|discriminate E|]. unfold lstep, act in E. cbn [ths nth_error] in E. destruct i; discriminate E.
Qed.
Print Assumptions C26_to_dir_refuted.
