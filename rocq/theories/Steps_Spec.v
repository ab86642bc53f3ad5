(** The steps of a command: what each does on its own, and what the whole is to do. *)
From Verif Require Import Base Steps_Model.

(** A process alone: it reads all of its input, to the end of file if [eof], writes its output, and ends, closing before if [c]. [n]: its steps. *)
Inductive does {A : Type} (next : A -> action A) : A -> bytes -> bytes -> bool -> bool -> nat -> Prop :=
| DEnd s : next s = End -> does next s [] [] false false 0
| DRead s k b r o c e n : next s = Read k -> does next (k (Some b)) r o c e n -> does next s (b :: r) o c e (S n)
| DEof s k o c e n : next s = Read k -> does next (k None) [] o c e n -> does next s [] o c true (S n)
| DWrite s s' b i o c e n : next s = Write b s' -> does next s' i o c e n -> does next s i (b :: o) c e (S n)
| DClose s s' i e n : next s = Close s' -> does next s' i [] false e n -> does next s i [] true e (S n).
(** one after the other: the output of each is the input of the next; [cs]: which close *)
Inductive composed {A : Type} (next : A -> action A) : list A -> bytes -> bytes -> list bool -> Prop :=
| CNil i : composed next [] i i []
| CCons s l i o o' c n cs : does next s i o c true n -> composed next l o o' cs -> composed next (s :: l) i o' (c :: cs).
Inductive run {A : Type} (next : A -> action A) (capacity : nat) : list (pipe * A) -> bytes -> nat -> list (pipe * A) -> bytes -> Prop :=
| RNone l out : run next capacity l out 0 l out
| RMore l out l' out' n l'' out'' : moves next capacity l out l' out' -> run next capacity l' out' n l'' out'' -> run next capacity l out (S n) l'' out''.
Definition stuck {A : Type} (next : A -> action A) (capacity : nat) (l : list (pipe * A)) (out : bytes) : Prop := forall l' out', ~ moves next capacity l out l' out'.
Definition ended {A : Type} (next : A -> action A) (l : list (pipe * A)) : Prop := forall p s, In (p, s) l -> next s = End.
