(** Model of the steps of a command and of the pipes between them: src/client/srcml.cpp:50-160, 178-232, srcml_execute.cpp:33-84.
    Simplified: what a step computes is a process given with it ([next]); only pipes between steps are bounded. *)
From Verif Require Import Base.
Local Open Scope N_scope.

(** srcml_input_src.hpp:52 *)
Inductive state := INDETERMINATE | SRC | SRCML.
Definition is_SRC (s : state) : bool := match s with SRC => true | _ => false end.
Definition is_SRCML (s : state) : bool := match s with SRCML => true | _ => false end.
(** srcml_cli.hpp:34-160: what the choice of steps looks at *)
Record request := Request { r_inputs : list state; r_out : state; r_compressions : nat; r_xml : bool; r_src : bool; r_cat : bool; r_test : bool;
  r_insrcml : bool; r_query : bool; r_pretty : bool; r_transformations : nat; r_stdin : option nat; r_language : bool }.
(** srcml.cpp:86-116: standard input is source with --language *)
Fixpoint set_nth {A} (n : nat) (x : A) (l : list A) : list A := match l, n with [], _ => [] | _ :: l, O => x :: l | y :: l, S n => y :: set_nth n x l end.
Definition sources (r : request) : list state :=
  match r_stdin r with None => r_inputs r | Some i => set_nth i (if r_language r then SRC else SRCML) (r_inputs r) end.
Definition transforms (r : request) : bool := negb (Nat.eqb (r_transformations r) 0).
(** 183-200 request_create_srcml; with transformations SRCML_COMMAND_XML is on *)
Definition creates (r : request) : bool :=
  r_test r || r_cat r || existsb is_SRC (sources r) || (is_SRCML (r_out r) || (r_xml r || transforms r)) || transforms r.
(** 206-209 *)
Definition displays (r : request) : bool := r_insrcml r || r_query r || r_pretty r.
(** 215-218 *)
Definition compresses (r : request) : bool := Nat.leb 1 (r_compressions r).
(** 225-230 *)
Definition extracts (r : request) : bool := r_src r || (negb (is_SRCML (r_out r)) && negb (creates r) && negb (displays r)).
Inductive work := Create | Display | Extract | Compress.
(** 128-157 *)
Definition steps (r : request) : list work :=
  (if creates r then [Create] else []) ++ (if displays r then [Display] else []) ++ (if extracts r then [Extract] else []) ++
  (if compresses r then [Compress] else []).
(** whether a step closes the pipe it writes to: create_srcml.cpp:362-363; create_src.cpp and srcml_display_metadata.cpp do not, nor does
    srcml_unit_unparse_fd (xmlOutputBufferCreateFd has no close callback); compress_srcml.cpp is the last *)
Definition closes (w : work) : bool := match w with Create => true | _ => false end.

(** ** Pipes *)
Inductive action (A : Type) := Read (k : option N -> A) | Write (b : N) (s : A) | Close (s : A) | End.
Arguments Read {A}. Arguments Write {A}. Arguments Close {A}. Arguments End {A}.
Record pipe := Pipe { contents : bytes; closed : bool }.
(** The steps from first to last, each with the pipe it reads, and what went to the destination. A process that writes to a pipe waits when the
    pipe is full, one that reads waits when it is empty and not closed (pipe(7)). *)
Inductive moves {A : Type} (next : A -> action A) (capacity : nat) : list (pipe * A) -> bytes -> list (pipe * A) -> bytes -> Prop :=
| MRead b r c s k l out : next s = Read k -> moves next capacity ((Pipe (b :: r) c, s) :: l) out ((Pipe r c, k (Some b)) :: l) out
| MEnd s k l out : next s = Read k -> moves next capacity ((Pipe [] true, s) :: l) out ((Pipe [] true, k None) :: l) out
| MWrite p s b s' q t l out : next s = Write b s' -> (length (contents q) < capacity)%nat ->
    moves next capacity ((p, s) :: (q, t) :: l) out ((p, s') :: (Pipe (contents q ++ [b]) (closed q), t) :: l) out
| MLast p s b s' out : next s = Write b s' -> moves next capacity [(p, s)] out [(p, s')] (out ++ [b])
| MClose p s s' q t l out : next s = Close s' -> moves next capacity ((p, s) :: (q, t) :: l) out ((p, s') :: (Pipe (contents q) true, t) :: l) out
| MCloseLast p s s' out : next s = Close s' -> moves next capacity [(p, s)] out [(p, s')] out
| MOther x l out l' out' : moves next capacity l out l' out' -> moves next capacity (x :: l) out (x :: l') out'.
(** srcml_execute.cpp:40-75: the first reads the input, the others empty pipes *)
Definition begins {A : Type} (input : bytes) (l : list A) : list (pipe * A) :=
  match l with [] => [] | s :: l => (Pipe input true, s) :: map (fun s => (Pipe [] false, s)) l end.
