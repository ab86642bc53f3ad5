(** Model of what the elements written in one thread share: the thread_local variables of srcMLOutput.cpp:53 (digits of a number),
    504-506 (names of the position attributes) and 538 (whether positions are written). *)
From Verif Require Import Base Text_Model.
Local Open Scope N_scope.

(** function-local thread_local variables: [None] until the thread first passes their declaration *)
Record tls := Tls { tl_buffer : bytes; tl_isposition : option bool; tl_prefix : option bytes }.
Definition new_thread : tls := Tls (repeat 0 POS_SIZE) None None.
(** the srcMLOutput an element is written to: the position option and the prefix of the position namespace of its unit's archive *)
Record output := Output { op_position : bool; op_prefix : bytes }.
(** a start tag (or an empty element) processed, in some thread *)
Record started := Started { st_thread : nat; st_output : output; st_empty : bool; st_pos : position }.
(** srcMLOutput.cpp:499-502: the test before the names are made *)
Definition no_extent (p : position) : bool := (p_endline p <? p_line p) || ((p_endline p =? p_line p) && (p_endcol p <? p_col p)).
(** srcMLOutput.cpp:531-560: the position attributes written in the start tag *)
Definition start_tag (tl : tls) (o : output) (empty : bool) (p : position) : outcome (tls * bytes) :=
  let isposition := match tl_isposition tl with Some b => b | None => op_position o end in
  let tl := Tls (tl_buffer tl) (Some isposition) (tl_prefix tl) in
  if isposition && negb empty then
    if no_extent p then Ok (tl, [])
    else let prefix := match tl_prefix tl with Some x => x | None => op_prefix o end in
         obind (add_position (tl_buffer tl) prefix p) (fun r => Ok (Tls (fst r) (tl_isposition tl) (Some prefix), snd r))
  else Ok (tl, []).
(** the elements of all threads, in the order they are written *)
Definition upd_thread (s : nat -> tls) (i : nat) (t : tls) : nat -> tls := fun j => if Nat.eqb i j then t else s j.
Fixpoint write_starts (s : nat -> tls) (l : list started) : outcome (list bytes) :=
  match l with
  | [] => Ok []
  | e :: l => obind (start_tag (s (st_thread e)) (st_output e) (st_empty e) (st_pos e)) (fun r =>
              obind (write_starts (upd_thread s (st_thread e) (fst r)) l) (fun q => Ok (snd r :: q)))
  end.
