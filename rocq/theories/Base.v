(** Shared definitions: bytes and the outcome type separating undefined behaviour. *)
From Coq Require Export Ascii String.
From Coq Require Export NArith ZArith Arith List Lia Bool.
From Coq Require Export ZifyBool ZifyNat ZifyN.
Export ListNotations.
#[global] Open Scope list_scope.
#[global] Open Scope nat_scope.

(** A byte string; bytes are numbers below 256 where it matters. *)
Definition bytes := list N.

(** Text literal helper: the bytes of an ASCII literal. *)
Definition txt (s : string) : bytes :=
  List.map (fun c => N.of_nat (nat_of_ascii c)) (list_ascii_of_string s).

(** Outcome of a C++ operation: a value, or undefined behaviour (out-of-range access,
    null dereference, overflow of a fixed buffer ...). *)
Inductive outcome (A : Type) : Type :=
| Ok (a : A)
| UB.
Arguments Ok {A} a.
Arguments UB {A}.

Definition obind {A B} (x : outcome A) (f : A -> outcome B) : outcome B :=
  match x with Ok a => f a | UB => UB end.

Definition is_ok {A} (x : outcome A) : bool := match x with Ok _ => true | UB => false end.

Lemma list_eq_nth_skip {A} (l : list A) n x :
  nth_error l n = Some x -> skipn n l = x :: skipn (S n) l.
Proof.
  revert n; induction l as [|y l IH]; intros [|n] H; simpl in *; try discriminate.
  - injection H as ->. reflexivity.
  - apply IH, H.
Qed.
