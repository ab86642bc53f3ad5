(** The position attributes an element should have, and those it gets. *)
From Verif Require Import Base Text_Model Text_Spec Thread_Model.
Local Open Scope N_scope.

Definition in_range (p : position) : Prop := p_line p < 2 ^ 31 /\ p_col p < 2 ^ 31 /\ p_endline p < 2 ^ 31 /\ p_endcol p < 2 ^ 31.
(** the token ends before it starts: the element has no extent *)
Definition backwards (p : position) : Prop := p_endline p < p_line p \/ (p_endline p = p_line p /\ p_endcol p < p_col p).
(** start and end, with the prefix of the position namespace *)
Definition positioned (prefix : bytes) (p : position) (out : bytes) : Prop :=
  exists l c l' c', decimal l (p_line p) /\ decimal c (p_col p) /\ decimal l' (p_endline p) /\ decimal c' (p_endcol p) /\
    let pre := match prefix with [] => [] | _ => prefix ++ txt ":" end in
    out = txt " " ++ pre ++ txt "start=""" ++ l ++ txt ":" ++ c ++ txt """ " ++ pre ++ txt "end=""" ++ l' ++ txt ":" ++ c' ++ txt """".
(** what an element should have in an output with this option and this prefix *)
Definition wanted (option : bool) (prefix : bytes) (empty : bool) (p : position) (out : bytes) : Prop :=
  (option = true -> empty = false -> ~ backwards p -> positioned prefix p out) /\
  (option = false \/ empty = true \/ backwards p -> out = []).
(** what a thread has done before *)
Definition same_thread (e : started) (l : list started) : list started := filter (fun x => Nat.eqb (st_thread x) (st_thread e)) l.
(** the first element written in the thread, and the first with positions to write *)
Definition first_output (l : list started) (e : started) : output := match l with x :: _ => st_output x | [] => st_output e end.
Definition has_position (x : started) : bool := negb (st_empty x) && negb (no_extent (st_pos x)).
Definition first_positioned (l : list started) (e : started) : output := match find has_position l with Some x => st_output x | None => st_output e end.
