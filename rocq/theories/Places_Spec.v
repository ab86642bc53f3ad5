(** Specification for C61: positions of elements. *)
From Verif Require Import Base Parser_Model Places_Model.

(** The position kept for a start tag, and the end kept for it. *)
Fixpoint kept {A} (l : list (nat * A)) (n : nat) : option A :=
  match l with [] => None | (m, x) :: r => if m =? n then Some x else kept r n end.

(** What a look-ahead may do: read tokens, but begin and end no elements (ANTLR runs no actions
    then), and read comments to their ends.  [n] comments are open before, the result is how many
    are open after. *)
Fixpoint look (c : acall) (n : nat) {struct c} : option nat :=
  match c with
  | Cstart _ _ | Cend _ | Cissue _ | Ccomplete _ => None
  | Cskip t => match l_type t with
               | Lopen _ => Some (S n)
               | Lclose _ => match n with 0 => None | S n => Some n end
               | _ => Some n
               end
  | Cguess l | Cregion l =>
      (fix go l n := match l with [] => Some n | c :: r => match look c n with Some m => go r m | None => None end end) l n
  | Cempty | Cflush | Cconsume _ _ => Some n
  end.
Fixpoint looks (l : list acall) (n : nat) : option nat :=
  match l with [] => Some n | c :: r => match look c n with Some m => looks r m | None => None end end.

(** Every look-ahead is such a one. *)
Inductive quiet : list acall -> Prop :=
| quiet_nil : quiet []
| quiet_guess l r : looks l 0 = Some 0 -> quiet r -> quiet (Cguess l :: r)
| quiet_region l r : quiet l -> quiet r -> quiet (Cregion l :: r)
| quiet_other c r : (forall l, c <> Cguess l) -> (forall l, c <> Cregion l) -> quiet r -> quiet (c :: r).

(** The text of some tokens, in the order in which they are written. *)
Definition text_before (l : list otok) : bytes := concat (map o_text l).

(** Positions in reading order. *)
Definition earlier (p q : point) : Prop := (fst p < fst q \/ (fst p = fst q /\ snd p < snd q))%Z.
Definition in_order (w : nat -> point) : Prop := forall a b, a < b -> earlier (w a) (w b).

(** The position at which the last type began, in a list of start tags (latest first). *)
Fixpoint last_type (l : list (nat * (etype * bool * point))) : point :=
  match l with
  | [] => (0, 0)%Z
  | (_, (e, f, p)) :: r => if is_type e STYPE && f then p else last_type r
  end.

(** A call that begins an element at a token, nothing skipped in between, and not the repeated type of
    a second declarator. *)
Inductive plain : acall -> Prop :=
| plain_start e : is_type e STYPEPREV = false -> plain (Cstart e true)
| plain_end e : plain (Cend e)
| plain_empty : plain Cempty
| plain_flush : plain Cflush
| plain_consume t b : plain (Cconsume t b)
| plain_skip t : plain (Cskip t)
| plain_complete c : plain (Ccomplete (Ecomment c))
| plain_guess l : plain (Cguess l)
| plain_region l : Forall plain l -> plain (Cregion l).
