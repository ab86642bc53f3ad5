(** Vocabulary for C27. *)
From Verif Require Import Base Handoff_Model.

(** * The document, as the parser shows it *)
(** Its units in order: the attributes of the start tag and the body; in a malformed document the last
    one may break off in the body. *)
Notation doc H B := (list (H * option B)%type) (only parsing).

(** The parser has been stopped: no unit any more, and at most two calls. *)
Inductive quiet {X H B} (M : machine X H B) : nat -> X -> Prop :=
| quiet_fin n x e : next M x = OFin e -> quiet M n x
| quiet_end n x b : next M x = OEnd b -> (forall t, quiet M n (after M x false t)) -> quiet M (S n) x
| quiet_root n x : next M x = OEndRoot -> (forall t, quiet M n (after M x false t)) -> quiet M (S n) x.

(** [shows M x us complete]: from [x] on the parser shows the units [us], then the end of the root
    (complete), or an error (malformed).  [inside M x c b us complete]: it is inside a unit with the body
    [b], which it collects if [c], and after which [us] remain.  Stopped, it is quiet. *)
Inductive shows {X H B} (M : machine X H B) : X -> doc H B -> bool -> Prop :=
| shows_end x : next M x = OEndRoot -> (forall t, quiet M 0 (after M x false t)) -> shows M x [] true
| shows_error x : next M x = OFin true -> shows M x [] false
| shows_unit x h b us e : next M x = OUnit h -> (forall c, quiet M 2 (after M x c true)) ->
    (forall c, inside M (after M x c false) c b us e) -> shows M x ((h, b) :: us) e
with inside {X H B} (M : machine X H B) : X -> bool -> option B -> doc H B -> bool -> Prop :=
| inside_end x c b b' us e : next M x = OEnd b' -> (c = true -> b' = b) -> quiet M 2 (after M x false true) ->
    shows M (after M x false false) us e -> inside M x c (Some b) us e
| inside_error x c : next M x = OFin true -> inside M x c None [] false.

(** Before the first unit, [n] calls about the root. *)
Inductive begins {X H B} (M : machine X H B) : nat -> X -> doc H B -> bool -> Prop :=
| begins_units x h b us e : shows M x ((h, b) :: us) e -> begins M 0 x ((h, b) :: us) e
| begins_error x : next M x = OFin true -> begins M 0 x [] false
| begins_root n x us e : next M x = ORoot -> begins M n (after M x false false) us e -> begins M (S n) x us e
| begins_end n x b us e : next M x = OEnd b -> begins M n (after M x false false) us e -> begins M (S n) x us e.

(** * What the caller should get *)
Fixpoint reads {H B} (us : doc H B) (ops : list op) : list (result H B) :=
  match ops with
  | [] => []
  | Read :: r =>
      match us with
      | (h, Some b) :: us => RUnit (Some h) (Some b) :: reads us r
      | _ => RNull :: reads [] r
      end
  | Skip :: r =>
      match us with
      | (h, Some b) :: us => RSkip true :: reads us r
      | (h, None) :: us => RSkip true :: reads [] r
      | [] => RSkip false :: reads [] r
      end
  end.

(** No spurious wake-up in an execution. *)
Definition calm (ls : list label) : Prop := Forall (fun l => l = Caller \/ l = Parser) ls.
(** The caller waits for a thread that has ended. *)
Definition left_waiting {X H B} (s : sys X H B) : Prop := (exists st, cl s = CWait st) /\ pa s = PExit.
Definition prefix_of {A} (a b : list A) : Prop := exists r, a ++ r = b.
