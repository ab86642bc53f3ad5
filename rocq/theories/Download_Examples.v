(** Downloads: concrete runs, and what goes wrong (C63). *)
From Verif Require Import Base Text_Model Download_Model Download_Spec Download_Proofs Download_Proofs2.
Local Open Scope N_scope.

Definition whole (s : string) : block := Block 200 (txt s) (Some (length (txt s))).
Definition good : download := Download [whole "ab"; whole "c"] true.
Definition missing : download := Download [] false.
Definition ws (i n : nat) : list label := repeat (Worker i) n.
Lemma calm_b : forall ls, forallb (fun l => match l with Spurious | Quit => false | _ => true end) ls = true -> calm ls.
Proof. intros ls H. apply Forall_forall. intros l I. rewrite forallb_forall in H. specialize (H l I). destruct l; try discriminate H; split; discriminate. Qed.
Definition stuck_b (s : sys) : bool :=
  match step Main s with Some _ => false | None => forallb (fun i => match step (Worker i) s with Some _ => false | None => true end) (seq 0 (length (threads s))) end.
Lemma stuck_by : forall s, stuck_b s = true -> stuck s.
Proof.
  intros s H. unfold stuck_b in H. destruct (step Main s) eqn:E; [discriminate H|]. split; [exact E|]. intros i. rewrite forallb_forall in H. destruct (nth_error (threads s) i) as [t|] eqn:J.
  - assert (L : (i < length (threads s))%nat) by (apply nth_error_Some; congruence). specialize (H i). destruct (step (Worker i) s); [|reflexivity]. discriminate H. apply in_seq. lia.
  - cbn [step]. unfold worker_step. rewrite J. reflexivity.
Qed.

(** a run that reads one input and refuses the next *)
Definition plain_run : list label :=
  [Main; Main] ++ ws 0 2 ++ [Main] ++ ws 0 1 ++ [Main] ++ ws 0 7 ++ [Main; Main] ++ [Main; Main] ++ ws 1 3 ++ [Main; Main].
Lemma plain : exists s, calm plain_run /\ reached [good; missing] 10 plain_run s /\ cl s = MEnd /\ results s = [true; false] /\ map got (threads s) = [txt "abc"; []] /\
  complete good = true /\ content good = txt "abc" /\ complete missing = false.
Proof. eexists. split; [apply calm_b; reflexivity|]. split; [vm_compute; reflexivity|]. repeat split. Qed.
(** the download is over before the main thread waits *)
Definition early_run : list label := [Main] ++ ws 0 10 ++ [Main].
Lemma early : exists s, calm early_run /\ reached [good] 10 early_run s /\ stuck s /\ cl s = MWait 0 /\ complete good = true.
Proof. eexists. split; [apply calm_b; reflexivity|]. split; [vm_compute; reflexivity|]. split; [apply stuck_by; reflexivity|]. split; reflexivity. Qed.
(** or the pipe is full *)
Definition full_run : list label := [Main] ++ ws 0 5 ++ [Main].
Lemma full : exists s, calm full_run /\ reached [good] 1 full_run s /\ stuck s /\ cl s = MWait 0 /\ complete good = true.
Proof. eexists. split; [apply calm_b; reflexivity|]. split; [vm_compute; reflexivity|]. split; [apply stuck_by; reflexivity|]. split; reflexivity. Qed.
(** a spurious wake-up *)
Lemma spurious : exists s, reached [good] 10 [Main; Main; Spurious; Main; Main] s /\ cl s = MEnd /\ results s = [false] /\ complete good = true.
Proof. eexists. split; [vm_compute; reflexivity|]. repeat split. Qed.
(** a transfer that is broken off: read as if it were whole, or refused *)
Definition broken : download := Download [whole "ab"; Block 200 (txt "cd") (Some 1%nat)] true.
Definition broken_run : list label := [Main; Main] ++ ws 0 2 ++ [Main] ++ ws 0 7 ++ [Main; Main; Main].
Definition broken_run' : list label := [Main; Main] ++ ws 0 8 ++ [Main; Main].
Lemma broken_off : exists s s', calm broken_run /\ reached [broken] 10 broken_run s /\ cl s = MEnd /\ results s = [true] /\ map got (threads s) = [txt "abc"] /\ content broken = txt "abcd" /\
  calm broken_run' /\ reached [broken] 10 broken_run' s' /\ cl s' = MEnd /\ results s' = [false].
Proof.
  eexists _, _. split; [apply calm_b; reflexivity|]. split; [vm_compute; reflexivity|]. split; [reflexivity|]. split; [reflexivity|]. split; [reflexivity|]. split; [reflexivity|].
  split; [apply calm_b; reflexivity|]. split; [vm_compute; reflexivity|]. split; reflexivity.
Qed.
(** an input that is not read to its end answers for the next *)
Definition next_run : list label := [Main; Main] ++ ws 0 2 ++ [Main; Quit] ++ [Main; Main] ++ ws 0 3 ++ [Main].
Lemma next_input : exists s, reached [good; missing] 10 next_run s /\ results s = [true; true] /\ cl s = MRead 1 /\ answers (blocks missing) (succeeds missing) = false.
Proof. eexists. split; [vm_compute; reflexivity|]. repeat split. Qed.
(** other codes of success (ftp: 226) *)
Definition ftp : download := Download [Block 226 (txt "ab") (Some 2%nat)] true.
Lemma ftp_refused : forall r ls s b, calm ls -> reached [ftp] r ls s -> nth_error (results s) 0 = Some b -> b = false.
Proof.
  intros r ls s b C H R. destruct (calm_answers _ _ _ _ C H) as [A _]. destruct (A 0%nat b ftp R eq_refl) as [_ B]. destruct b; [|reflexivity]. discriminate (B eq_refl).
Qed.
