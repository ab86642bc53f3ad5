(** Extracting source code: what is expected. *)
From Verif Require Import Base Text_Model Text_Spec Extract_Model.
Local Open Scope N_scope.

(** [out] is the texts in order, with a NUL between each two *)
Inductive separated : bytes -> list bytes -> Prop :=
| SNone : separated [] []
| SOne a : separated a [a]
| SMore a out b l : separated out (b :: l) -> separated (a ++ 0 :: out) (a :: b :: l).
(** what went to a file descriptor *)
Definition written (fd : Z) (l : list (Z * bytes)) : bytes := concat (map snd (filter (fun w => Z.eqb (fst w) fd) l)).
(** the file at a path after all writes: the last one's contents *)
Definition file_at (path : bytes) (l : list (bytes * bytes * bytes)) (c : bytes) : Prop :=
  exists a p b, l = a ++ (p, path, c) :: b /\ forall p' c', ~ In (p', path, c') b.
(** the source text as asked for: the unit's own encoding, else the one asked for, else Latin-1 *)
Definition asked (x : extraction) (e : eol) (enc : option bytes) (u : sunit) (t : bytes) : Prop :=
  exists name, t = x_encode x name (unparse e (su_source u)) /\
    match su_encoding u, enc with Some n, _ => name = n | None, Some n => name = n | None, None => name = txt "ISO-8859-1" end.
(** --eol, or as it is *)
Definition or_auto (e : option eol) : eol := match e with Some e => e | None => EOL_AUTO end.
(** the usual extension of a language *)
Definition extension (l : bytes) (e : bytes) : Prop :=
  (l = txt "C" /\ e = txt ".c") \/ (l = txt "C++" /\ e = txt ".cpp") \/ (l = txt "C#" /\ e = txt ".cs") \/ (l = txt "Java" /\ e = txt ".java") \/
  (~ In l [txt "C"; txt "C++"; txt "C#"; txt "Java"] /\ e = []).
(** the name of the [n]th unit of an archive *)
Definition named (n : nat) (u : sunit) (f : bytes) : Prop :=
  match su_name u with
  | Some (c :: r) => f = c :: r
  | _ => exists l e d, su_language u = Some l /\ extension l e /\ decimal d (N.of_nat n) /\ f = txt "srcml_unit_" ++ d ++ e
  end.
(** an entry of the archive: the name and, when it has no NUL, the text *)
Definition archived (x : extraction) (n : nat) (u : sunit) (e : bytes * bytes) : Prop := named n u (fst e) /\ exists t, asked x EOL_AUTO None u t /\ (no_byte 0 t -> snd e = t).
(** one after the other, numbered *)
Inductive numbered {A B : Type} (P : nat -> A -> B -> Prop) : nat -> list A -> list B -> Prop :=
| NumNil n : numbered P n [] []
| NumCons n a b l m : P n a b -> numbered P (S n) l m -> numbered P n (a :: l) (b :: m).
