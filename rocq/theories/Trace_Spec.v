(** Specification of the log of --verbose: its lines and its last line. *)
From Verif Require Import Base Text_Spec Trace_Model.
Local Open Scope N_scope.

(** an entry of the log: a file that was handled, another file, and a file that is counted as another one but not shown *)
Inductive entry := Source (text : bytes) | Other (text : bytes) | Hidden.
Definition is_source (e : entry) : bool := match e with Source _ => true | _ => false end.
Definition sources (l : list entry) : nat := length (filter is_source l).
Definition others (l : list entry) : nat := length (filter (fun e => negb (is_source e)) l).
(** [s] is [d] in a field of [w] characters, on the right *)
Definition in_field (w : nat) (d s : bytes) : Prop := exists k, s = repeat 32 k ++ d /\ (k + length d = max w (length d))%nat.
(** what the entry at place [i] shows: a file that was handled shows how many there are up to here *)
Definition shows_entry (l : list entry) (i : nat) (s : bytes) : Prop :=
  match nth_error l i with
  | Some (Source t) => exists d f, decimal d (N.of_nat (sources (firstn (S i) l))) /\ in_field 5 d f /\ s = f ++ [32] ++ t ++ [10]
  | Some (Other t) => s = txt "    - " ++ t ++ [10]
  | Some Hidden => s = []
  | None => False
  end.
(** the whole log for these entries *)
Definition log_for (l : list entry) (out : bytes) : Prop :=
  exists lines a b c, out = concat lines ++ [10] ++ txt "Source Files: " ++ a ++ [9] ++ txt "Other Files: " ++ b ++ [9] ++ txt "Errors: 0" ++ [9] ++ txt "Total Files: " ++ c ++ [10] /\
    length lines = length l /\ (forall i s, nth_error lines i = Some s -> shows_entry l i s) /\
    decimal a (N.of_nat (sources l)) /\ decimal b (N.of_nat (others l)) /\ decimal c (N.of_nat (length l)).
(** a log with these numbers in its last line: files handled, other files, errors, all *)
Definition counts_in (out : bytes) (a b e c : N) : Prop :=
  exists front da db de dc, out = front ++ [10] ++ txt "Source Files: " ++ da ++ [9] ++ txt "Other Files: " ++ db ++ [9] ++ txt "Errors: " ++ de ++ [9] ++ txt "Total Files: " ++ dc ++ [10] /\
    decimal da a /\ decimal db b /\ decimal de e /\ decimal dc c.

(** what the log has to say about a file of a conversion. [option_text]: an optional part, after a space. *)
Definition option_text (o : option bytes) : bytes := match o with Some t => [32] ++ t | None => [] end.
Inductive describes : bool -> answer -> entry -> Prop :=
| describes_other o n : (match o with Some f => n = f | None => n = [] end) -> describes false (NoLanguage o) (Other (repeat 32 52 ++ n))
| describes_hidden o : describes true (NoLanguage o) Hidden
| describes_source quiet l k loc d s h f : (k + length l = max 4 (length l))%nat -> decimal d (N.of_nat loc) -> in_field 5 d s ->
    describes quiet (Parsed l loc h f) (Source (l ++ repeat 32 k ++ [32] ++ s ++ option_text h ++ option_text f)).
(** the requests that are no errors *)
Definition no_errors (rs : list (option answer)) : list answer :=
  flat_map (fun o => match o with Some Failed => [] | Some r => [r] | None => [] end) rs.
Definition parsed (rs : list (option answer)) : nat := length (filter (fun r => match r with Parsed _ _ _ _ => true | _ => false end) (no_errors rs)).
Definition without_language (rs : list (option answer)) : nat := length (filter (fun r => match r with NoLanguage _ => true | _ => false end) (no_errors rs)).
(** the units of an archive that have a name, in order *)
Definition names (us : list (option bytes)) : list bytes := flat_map (fun o => match o with Some f => [f] | None => [] end) us.
(** the place of a file below the directory *)
Definition place (dir f : bytes) : bytes := (if list_eq_dec N.eq_dec dir (txt ".") then [] else if list_eq_dec N.eq_dec dir (txt "./") then [] else dir) ++ [47] ++ f.
