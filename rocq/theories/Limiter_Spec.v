(** Vocabulary for C26. *)
From Verif Require Import Base Limiter_Model.

(** Every thread is through. *)
Definition all_done (s : lim) : Prop := Forall (fun t => todo t = []) (ths s).
(** A thread waits for a file to be closed. *)
Definition waiting (s : lim) : Prop := exists t, In t (ths s) /\ asleep t = true.
(** Some thread can go on by itself. *)
Definition can_move (s : lim) : Prop := exists i j s', lstep (Act i j) s = Some s'.
(** Threads that close each file before opening the next one. *)
Inductive one_at_a_time : list op -> Prop :=
| one_nil : one_at_a_time []
| one_more r : one_at_a_time r -> one_at_a_time (Open :: Close :: r).
(** Opens and closes in a program, as a balance. *)
Definition balance (p : list op) : Z :=
  fold_right (fun o n => match o with Open => n + 1 | Close => n - 1 | _ => n end)%Z 0%Z p.
Definition lspurious (ms : list move) : nat :=
  length (filter (fun m => match m with Spurious _ => true | _ => false end) ms).
