(** Vocabulary for C44. *)
From Verif Require Import Base Handoff_Model Sax_Model Shared_Model.

(** The reader [i] handles the whole document in the course of [l], and between its start and its last event no other one starts. *)
Definition last_to_open (l : list act) (i : nat) (evs : list xev) : Prop :=
  length (filter (fun a => match a with Handles j => j =? i | Opens _ => false end) l) = length evs /\
  exists before while_read afterwards, l = before ++ Opens i :: while_read ++ afterwards /\
    ~ In (Handles i) before /\ ~ In (Handles i) afterwards /\ (forall j, In (Opens j) while_read -> j = i).
(** The variables are another reader's when [i] handles the [n]th event of its document. *)
Definition lost_at (l : list act) (i n : nat) : Prop :=
  exists a b j, l = a ++ Opens j :: b /\ j <> i /\ ~ In (Opens i) b /\
    length (filter (fun x => match x with Handles j => j =? i | Opens _ => false end) a) <= n.
