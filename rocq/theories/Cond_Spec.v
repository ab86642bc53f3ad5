(** Conditional compilation: which parts are to be left as text. *)
From Verif Require Import Base Cond_Model.
Local Open Scope N_scope.

(** a source as its directives: code, between them, is left out *)
Inductive block := Nothing | More (p : part) (b : block)
with part := Line (* #define, #include, ... *) | Cond (i : start_directive) (first : block) (rest : branches)
with branches := Endif | Branch (e : else_directive) (b : block) (rest : branches)
with start_directive := If (zero : bool) | Ifdef
with else_directive := Else | Elif (zero : bool).
Definition is_zero (i : start_directive) : bool := match i with If z => z | Ifdef => false end.
Definition opens (i : start_directive) : directive := match i with If z => Dif z | Ifdef => Dif_other end.
Definition goes_on (e : else_directive) : directive := match e with Else => Delse | Elif z => Delif z end.
(** The directives in order, each with whether what follows is text, being in a block that is ([text]).
    [else_too]: all but the first branch are, or the first but one for #if 0. [zero_too]: the first branch of #if 0 is. *)
Fixpoint marked (else_too zero_too : bool) (text : bool) (b : block) : list (directive * bool) :=
  match b with
  | Nothing => []
  | More p b => part_marked else_too zero_too text p ++ marked else_too zero_too text b
  end
with part_marked (else_too zero_too : bool) (text : bool) (p : part) : list (directive * bool) :=
  match p with
  | Line => [(Dother, text)]
  | Cond i f r => let t := text || (zero_too && is_zero i) in
      (opens i, t) :: marked else_too zero_too t f ++ rest_marked else_too zero_too text (is_zero i) r
  end
with rest_marked (else_too zero_too : bool) (text zero : bool) (r : branches) : list (directive * bool) :=
  match r with
  | Endif => [(Dendif, text)]
  | Branch e b r => let t := text || (else_too && negb zero) in
      (goes_on e, t) :: marked else_too zero_too t b ++ rest_marked else_too zero_too text false r
  end.
(** A source that need not be well formed: #else and #endif without #if between *)
Inductive chunk := Good (p : part) | Stray (d : directive).
Definition source_marked (else_too zero_too : bool) (l : list chunk) : list (directive * bool) :=
  flat_map (fun c => match c with Good p => part_marked else_too zero_too false p | Stray d => [(d, false)] end) l.
Definition stray (d : directive) : Prop := match d with Dif _ | Dif_other => False | _ => True end.

(** ** The parser: directives are passed, also in look-ahead, after which it is back where it was. The position is the number of
    directives passed. Look-ahead does not start or end in skipped text, which is passed at once. *)
Definition text_at (ds : list (directive * bool)) (p : nat) : bool := match p with O => false | S k => match nth_error ds k with Some (_, t) => t | None => false end end.
Inductive looks (o : coptions) (ds : list (directive * bool)) : nat -> pp -> nat -> pp -> list (nat * bool) -> Prop :=
| LStop p s : looks o ds p s p s []
| LNext p s d t size s' b q s'' l : nth_error ds p = Some (d, t) -> eol_post o true size d s = (s', b) -> looks o ds (S p) s' q s'' l ->
    looks o ds p s q s'' ((p, b) :: l)
(** look-ahead inside of look-ahead *)
| LBack p s p' q s'' l : text_at ds p = false -> text_at ds p' = false -> looks o ds p' s q s'' l -> looks o ds p s q s'' l.
(** the directives passed, with whether what follows was skipped *)
Inductive parses (o : coptions) (ds : list (directive * bool)) : nat -> pp -> list (nat * bool) -> Prop :=
| PStop p s : parses o ds p s []
| PNext p s d t size s' b l : nth_error ds p = Some (d, t) -> eol_post o false size d s = (s', b) -> parses o ds (S p) s' l -> parses o ds p s ((p, b) :: l)
| PElse p s before size l : parses o ds p (else_handled before size s) l -> parses o ds p s l
| PLook p s q s' l l' : text_at ds p = false -> looks o ds p s q s' l -> text_at ds q = false -> parses o ds p s' l' -> parses o ds p s (l ++ l').
(** as expected *)
Definition as_marked (ds : list (directive * bool)) (l : list (nat * bool)) : Prop := forall p b, In (p, b) l -> exists d, nth_error ds p = Some (d, b).

(** ** Where the counting of #if is right with the option for #else: no #else and no #if 0 in a branch left as text
    for being an #else, and no #else of an #if 0 in the #else of an #if 0 *)
Fixpoint plain (b : block) : bool := match b with Nothing => true | More p b => plain_part p && plain b end
with plain_part (p : part) : bool :=
  match p with Line => true | Cond i f r => negb (is_zero i) && plain f && match r with Endif => true | Branch _ _ _ => false end end.
Fixpoint plain_rest (r : branches) : bool := match r with Endif => true | Branch _ b r => plain b && plain_rest r end.
Fixpoint simple (live : bool) (b : block) : bool := match b with Nothing => true | More p b => simple_part live p && simple live b end
with simple_part (live : bool) (p : part) : bool :=
  match p with
  | Line => true
  | Cond i f r => if is_zero i then match r with Endif => true | Branch _ b r => negb live && simple true b && plain_rest r end
                  else simple live f && plain_rest r
  end.
