(** Specification of the parser test (C64). *)
From Coq Require Import Sorting.Sorted Sorting.Permutation.
From Verif Require Import Base Text_Model Text_Spec Ptest_Model.
Local Open Scope N_scope.

(** the unit is parsed again as it was *)
Definition same (q : request) : bool := beqb (r_again q) (r_xml q).
Definition number {A} (f : A -> bool) (l : list A) : nat := length (filter f l).
Definition has_language (q : request) : Prop := r_language q <> None.
Definition in_language (l : bytes) (q : request) : bool := match r_language q with Some k => beqb k l | None => false end.
(** units of a file that follow each other have one language *)
Inductive uniform : list request -> Prop :=
| u_none : uniform []
| u_one : forall q, has_language q -> uniform [q]
| u_more : forall q r qs, has_language q -> (r_file q = r_file r -> r_language q = r_language r) -> uniform (r :: qs) -> uniform (q :: r :: qs).
(** A table: for each language the failures and the units. *)
Definition table := list (bytes * nat * nat).
Definition t_language (r : bytes * nat * nat) := fst (fst r).
Definition t_failed (r : bytes * nat * nat) := snd (fst r).
Definition t_total (r : bytes * nat * nat) := snd r.
Definition in_order (t : table) : Prop := StronglySorted (fun a b => before (t_language a) (t_language b) = true) t.
(** it counts these units: one row for each language, and no other *)
Definition counts (qs : list request) (t : table) : Prop :=
  (forall r, In r t -> t_total r = number (in_language (t_language r)) qs /\ t_failed r = number (fun q => in_language (t_language r) q && negb (same q)) qs /\ t_total r <> 0%nat) /\
  (forall q l, In q qs -> r_language q = Some l -> In l (map t_language t)).
(** how the counts are written *)
Definition counts_text (color : bool) (percent : nat -> nat -> bytes) (failed total : nat) (t : table) : bytes :=
  dark color ++ [10] ++ txt "Counts: " ++ plain color ++ row (txt "Total") percent failed total ++
  concat (map (fun r => txt "        " ++ row (t_language r) percent (t_failed r) (t_total r)) t).

(** Units in files: no file is empty, their names are there, two that follow each other differ in name, and the first unit of each has a language. *)
Inductive files : option bytes -> list (list request) -> Prop :=
| f_none : forall p, files p []
| f_file : forall p q qs gs, r_file q <> [] -> p <> Some (r_file q) -> Forall (fun r => r_file r = r_file q) qs -> has_language q -> files (Some (r_file q)) gs -> files p ((q :: qs) :: gs).
(** the URL last seen *)
Definition newer (u : bytes) (q : request) : bytes := match r_url q with Some v => v | None => u end.
(** A unit with what is shown of it: the language of its file, the URL last seen, its number in the file. *)
Definition item := (bytes * bytes * nat * request)%type.
Fixpoint numbered (l u : bytes) (n : nat) (qs : list request) : list item :=
  match qs with [] => [] | q :: qs => (l, newer u q, n, q) :: numbered l (newer u q) (S n) qs end.
Definition first_language (g : list request) : bytes := match g with q :: _ => match r_language q with Some l => l | None => [] end | [] => [] end.
Fixpoint items (u : bytes) (gs : list (list request)) : list (list item) :=
  match gs with [] => [] | g :: gs => numbered (first_language g) u 1 g :: items (fold_left newer g u) gs end.
Definition failing (i : item) : bool := negb (same (snd i)).
(** The text of a file: its language and URL, and the numbers of the units, with a sign for those that fail; a line is broken where its numbers and
    the blanks after them (signs and colours not counted) are 75 characters or more. *)
Inductive marks (color : bool) : nat -> list item -> bytes -> Prop :=
| m_none : forall c, marks color c [] []
| m_more : forall c l u n q is t, (c < 75)%nat -> marks color (c + length (digits n) + 1) is t -> marks color c ((l, u, n, q) :: is) (mark color (same q) n ++ txt " " ++ t)
| m_wrap : forall c l u n q is t, (75 <= c)%nat -> marks color (length (digits n) + 1) is t -> marks color c ((l, u, n, q) :: is) (wrap ++ mark color (same q) n ++ txt " " ++ t).
Inductive file_text (color : bool) : list item -> bytes -> Prop :=
| ft : forall l u n q is t, marks color 0 ((l, u, n, q) :: is) t -> file_text color ((l, u, n, q) :: is) (header l u ++ t).
(** Two short texts are shown whole; of longer ones the lines they begin with and the text they end with are left out. *)
Definition long (a b : bytes) : Prop := (5 < newlines a \/ 5 < newlines b)%nat.
Inductive cut (a b : bytes) : bytes -> bytes -> Prop :=
| c_whole : ~ long a b -> cut a b a b
| c_part : forall p q s t, long a b -> a = p ++ s ++ q -> b = p ++ t ++ q -> p = [] \/ last p 0 = 10 -> s <> t ->
    (forall l s' t', s = l ++ 10 :: s' -> t <> l ++ 10 :: t') -> (forall c s' t', s = s' ++ [c] -> t <> t' ++ [c]) -> cut a b s t.
(** the texts differ at a byte of the first that does not end a line *)
Definition in_line (a b : bytes) : Prop := nth (agree a b) a 0 <> 10.
Definition error_of (color : bool) (i : item) (e : bytes) : Prop :=
  let '(l, u, n, q) := i in exists a b, shown (r_xml q) (r_again q) = Ok (a, b) /\ (in_line (r_xml q) (r_again q) -> cut (r_xml q) (r_again q) a b) /\ error_text color l u (r_file q) n a b = Ok e.
Fixpoint joined (ns : list nat) : bytes := match ns with [] => [] | [n] => digits n | n :: r => digits n ++ txt "," ++ joined r end.
Definition head_of (i : item) : bytes := let '(l, u, n, q) := i in summary_head l u (r_file q).
Definition number_of (i : item) : nat := let '(l, u, n, q) := i in n.
(** Failures that follow each other and have the same language, URL and file are one line. *)
Definition line_of (r : bytes * list nat) : bytes := fst r ++ joined (snd r).
Fixpoint apart (rs : list (bytes * list nat)) : Prop := match rs with r :: ((s :: _) as t) => fst r <> fst s /\ apart t | _ => True end.
Definition runs_of (is : list item) (rs : list (bytes * list nat)) : Prop :=
  map (fun i => (head_of i, number_of i)) is = flat_map (fun r => map (pair (fst r)) (snd r)) rs /\ Forall (fun r => snd r <> []) rs /\
  apart rs.
(** the fields have room *)
Definition fits (i : item) : Prop := let '(l, u, n, q) := i in (length l <= 12 /\ length u <= 30 /\ length (r_file q) <= 30)%nat.
(** sorted as texts *)
Definition sorted_lines (l : list bytes) : Prop := StronglySorted (fun a b => before b a = false) l.
(** how the report begins *)
Definition errors_text (es : list bytes) : bytes := [10; 10] ++ txt "Errors:" ++ [10] ++ concat es.
Definition summary_text (ls : list bytes) : bytes := [10; 10] ++ txt "Summary:" ++ [10] ++ concat (map (fun x => x ++ [10]) ls).
(** the unit does not fail, or is short and not empty *)
Definition harmless (q : request) : Prop := same q = true \/ (r_xml q <> [] /\ ~ long (r_xml q) (r_again q)).
(** ** How it is written *)
(** [t] is [s] with spaces after it, or before it, to the width [w] *)
Definition padded_after (w : nat) (s t : bytes) : Prop := exists k, t = s ++ repeat 32 k /\ length t = Nat.max w (length s).
Definition padded_before (w : nat) (s t : bytes) : Prop := exists k, t = repeat 32 k ++ s /\ length t = Nat.max w (length s).
(** A row: the name, the failures, the units, a tab and the percentage: that of the failures, but <1 for less than one. *)
Definition row_text (name : bytes) (percent : nat -> nat -> bytes) (m n : nat) (t : bytes) : Prop :=
  exists a b c d x y, t = a ++ b ++ c ++ [9] ++ d ++ txt "%" ++ [10] /\ padded_after 12 name a /\ decimal x (N.of_nat m) /\ padded_before 6 x b /\ decimal y (N.of_nat n) /\ padded_before 6 y c /\
    ((m = 0 \/ n <= 100 * m)%nat -> padded_before 4 (percent m n) d) /\ (~ (m = 0 \/ n <= 100 * m)%nat -> d = txt "  <1").
(** The number of a unit; without colour a sign tells a failure, with colour red does. *)
Definition number_text (color ok : bool) (n : nat) (t : bytes) : Prop :=
  exists d, decimal d (N.of_nat n) /\ t = (if color then 27 :: txt (if ok then "[0;33m" else "[0;31m") ++ d ++ 27 :: txt "[0m" else (if ok then d else 45 :: d)).
(** The beginning of a file, of a line within a file, and of a line of the summary *)
Definition file_line (language url t : bytes) : Prop := exists a b, t = [10] ++ a ++ b /\ padded_after 12 language a /\ padded_after 30 url b.
Definition next_line (t : bytes) : Prop := exists b, t = [10] ++ repeat 32 12 ++ b /\ padded_after 30 (txt "...") b.
Definition summary_line (language url file t : bytes) : Prop := exists a b c, t = a ++ b ++ [32] ++ c ++ [32] /\ padded_after 12 language a /\ padded_after 30 url b /\ padded_after 30 file c.
(** The text of an error, without colour *)
Definition error_lines (language url file : bytes) (n : nat) (a b t : bytes) : Prop :=
  exists d, decimal d (N.of_nat n) /\ t = language ++ [9] ++ url ++ [9] ++ file ++ [9] ++ d ++ [10] ++ txt " test:" ++ [10] ++ a ++ (if last a 0 =? 10 then [] else [10]) ++ txt "srcml:" ++ [10] ++ b ++ [10].
