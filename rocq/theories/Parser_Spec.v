(** Vocabulary for the token stream properties, independent of the parser's own bookkeeping. *)
From Verif Require Import Base Parser_Model.

(** The source text: the lexer's tokens, one after the other. *)
Definition source (l : list ltok) : bytes := concat (map l_text l).

(** The source text a reader recovers from the calls on the XML writer: text nodes, and the
    characters named by escape elements. *)
Definition recovered (l : list ev) : bytes :=
  concat (map (fun e => match e with Txt x => x | Esc x => x | Open _ => [] | Close => [] end) l).

Definition prefix_of {A} (a b : list A) : Prop := exists r, a ++ r = b.

(** Numbers of elements opened and closed. *)
Definition opens (l : list ev) : nat :=
  length (filter (fun e => match e with Open _ => true | _ => false end) l).
Definition closes (l : list ev) : nat :=
  length (filter (fun e => match e with Close => true | _ => false end) l).

(** At no point more elements were closed than opened. *)
Definition never_over_closed (l : list ev) : Prop :=
  forall n, closes (firstn n l) <= opens (firstn n l).

(** Mode bit [b] is set in the flags of state [t]. *)
Definition active (b : N) (t : mstate) : Prop := N.testbit (flags t) b = true.
(** State [t] has all the modes of [m]. *)
Definition has_modes (m : N) (t : mstate) : Prop := N.land (flags t) m = m.

(** The end tags for the elements open in the states [l], innermost first. *)
Definition open_types (l : list mstate) : list etype := concat (map (fun t => map snd (opened t)) l).

(** An element's tags as they are delivered; the tags of the whole unit and of cancelled statements
    print nothing. *)
Definition shown (t : otok) : bool :=
  match o_type t with TE Eunit => false | TE Enop => false | TE _ => true | _ => false end.
(** End tag [t] was issued for the element whose start tag is [n]. *)
Definition ends (t : otok) (n : nat) : bool := match o_of t with Some m => m =? n | None => false end.
(** Follows the tags: [open] are the elements open so far, innermost first.  An end tag must have been
    issued for the innermost one. *)
Fixpoint follow (l : list otok) (open : list nat) : option (list nat) :=
  match l with
  | [] => Some open
  | t :: r =>
      if shown t then
        match o_cat t with
        | Kstart => follow r (o_id t :: open)
        | Kend => match open with
                  | n :: k => if ends t n then follow r k else None
                  | [] => None
                  end
        | _ => follow r open
        end
      else follow r open
  end.

(** Every mode recorded as transparently active in a state is set in that state or in one that
    encloses it.  States are listed innermost first. *)
Definition supported (l : list mstate) : Prop :=
  forall a t r, l = a ++ t :: r -> forall b, N.testbit (flags_all t) b = true ->
  exists u, In u (t :: r) /\ active b u.
(** The states [l'] are left after removing the inner states [a] of [l]. *)
Definition removed (a l l' : list mstate) : Prop := l = a ++ l' /\ l' <> [].
