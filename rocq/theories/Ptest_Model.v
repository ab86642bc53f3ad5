(** Model of the parser test (--parser-test): src/client/ParserTest.cpp, called by srcml_write.cpp:65-68 for each unit, in their order, and by
    create_srcml.cpp:355-357 at the end. External: unparsing and parsing again (the result is a field of the request), std::setprecision(2) on a
    percentage, srcml_archive_write_string (its texts are the output). Not modelled: overflow of the counters; the second "while" at 139-146, whose
    iterators are no longer valid and whose results are not used. *)
From Coq Require Import DecimalString.
From Verif Require Import Base Text_Model.
Local Open Scope N_scope.

(** A unit: the URL of its archive (ParseRequest.hpp), the input it comes from, its language, its content, and the content after it was unparsed and
    parsed again (72-90). *)
Record request := Request { r_url : option bytes; r_file : bytes; r_language : option bytes; r_xml : bytes; r_again : bytes }.
(** ParserTest.hpp:45-56, the static members; the maps are sorted lists *)
Record state := State { previous : bytes; count : nat; total : nat; line_count : nat; url : bytes; ltotal : list (bytes * nat); misses : list (bytes * nat);
  failed : nat; unit_language : bytes; errors : list bytes; summary : list bytes }.
(** ParserTest.cpp:222-232 *)
Definition nothing : state := State [] 0 0 0 [] [] [] 0 [] [] [].

(** std::less of std::string *)
Fixpoint before (a b : bytes) : bool :=
  match a, b with _, [] => false | [], _ :: _ => true | x :: a, y :: b => if x =? y then before a b else x <? y end.
(** ++m[k] *)
Fixpoint bump (k : bytes) (m : list (bytes * nat)) : list (bytes * nat) :=
  match m with [] => [(k, 1%nat)] | (j, n) :: r => if beqb k j then (j, S n) :: r else if before k j then (k, 1%nat) :: m else (j, n) :: bump k r end.
(** m[k], 0 if there is none *)
Fixpoint at_key (k : bytes) (m : list (bytes * nat)) : nat := match m with [] => 0%nat | (j, n) :: r => if beqb k j then n else at_key k r end.
(** std::sort (summary, 191) *)
Fixpoint insert (x : bytes) (l : list bytes) : list bytes := match l with [] => [x] | y :: r => if before y x then y :: insert x r else x :: l end.
Definition sort (l : list bytes) : list bytes := fold_right insert [] l.
(** operator<< of an int, and std::setw with std::left and std::right *)
Definition digits (n : nat) : bytes := txt (NilZero.string_of_uint (Nat.to_uint n)).
Definition left_in (w : nat) (s : bytes) : bytes := s ++ repeat 32 (w - length s).
Definition right_in (w : nat) (s : bytes) : bytes := repeat 32 (w - length s) ++ s.

(** 119: how far the texts agree. Reading the end of the second gives its NUL, which is no byte of the first. *)
Fixpoint agree (a b : bytes) : nat := match a, b with x :: a, y :: b => if x =? y then S (agree a b) else 0%nat | _, _ => 0%nat end.
(** 122-129: back to the start of the line. If the byte at the place is itself the end of a line, past it. *)
Fixpoint back (s : bytes) (i : nat) : nat :=
  if nth i s 0 =? 10 then S i else match i with O => 0%nat | S j => back s j end.
(** 136: the same from the end; nothing precedes the start of the second *)
Fixpoint agree_back (a b : bytes) : outcome nat :=
  match a, b with [], _ => Ok 0%nat | _ :: _, [] => UB | x :: a, y :: b => if x =? y then obind (agree_back a b) (fun n => Ok (S n)) else Ok 0%nat end.
Definition newlines (s : bytes) : nat := length (filter (N.eqb 10) s).
(** 113-151: what is shown of two texts that differ; erasing more than there is in the second is undefined *)
Definition shown (a b : bytes) : outcome (bytes * bytes) :=
  if Nat.ltb 5 (newlines a) || Nat.ltb 5 (newlines b) then
    let p := back a (agree a b) in
    if Nat.ltb (length b) p then UB
    else let a' := skipn p a in let b' := skipn p b in
         obind (agree_back (rev a') (rev b')) (fun q => Ok (firstn (length a' - q) a', firstn (length b' - q) b'))
  else Ok (a, b).
Definition esc (s : string) : bytes := 27 :: txt s.
Definition dark (color : bool) : bytes := if color then esc "[0;30;1m" else [].
Definition plain (color : bool) : bytes := if color then esc "[0m" else [].
(** 154-160; back() of an empty string is undefined *)
Definition error_text (color : bool) (language url file : bytes) (n : nat) (a b : bytes) : outcome bytes :=
  match a with
  | [] => UB
  | _ => Ok (dark color ++ language ++ [9] ++ url ++ [9] ++ file ++ [9] ++ digits n ++ plain color ++ [10] ++ dark color ++ txt " " ++ txt "test:" ++ [10] ++ plain color ++ a ++ dark color ++
             (if last a 0 =? 10 then [] else [10]) ++ txt "srcml:" ++ [10] ++ plain color ++ b ++ [10])
  end.
(** 163-171 *)
Definition summary_head (language url file : bytes) : bytes := left_in 12 language ++ left_in 30 url ++ txt " " ++ left_in 30 file ++ txt " ".
Definition add_summary (h : bytes) (n : nat) (l : list bytes) : list bytes :=
  match rev l with
  | s :: r => if beqb (firstn (length h) s) h then rev r ++ [s ++ txt "," ++ digits n] else l ++ [h ++ digits n]
  | [] => [h ++ digits n]
  end.
(** 47-64: a new file *)
Definition header (language url : bytes) : bytes := 10 :: left_in 12 language ++ left_in 30 url.
Definition wrap : bytes := 10 :: left_in 12 (txt " ") ++ left_in 30 (txt "...").
Definition mark (color ok : bool) (n : nat) : bytes :=
  (if color then (if ok then esc "[0;33m" else esc "[0;31m") else if ok then [] else txt "-") ++ digits n ++ plain color.

(** ParserTest.cpp:40-176 [ParserTest::entry]: the new state, and what is written *)
Definition entry (color : bool) (q : request) (s : state) : outcome (state * bytes) :=
  let u := match r_url q with Some u => u | None => url s end in
  let fresh := match previous s with [] => true | _ => negb (beqb (r_file q) (previous s)) end in
  match fresh, r_language q with
  | true, None => Ok (State (r_file q) 0 (total s) (line_count s) u (ltotal s) (misses s) (failed s) (unit_language s) (errors s) (summary s), [])
  | _, _ =>
      let language := if fresh then match r_language q with Some l => l | None => [] end else unit_language s in
      let n := S (if fresh then 0 else count s) in
      let lc := if fresh then 0%nat else line_count s in
      let w := Nat.leb 75 lc in
      let lc' := ((if w then 0 else lc) + length (digits n) + 1)%nat in
      let ok := beqb (r_again q) (r_xml q) in
      let out := (if fresh then header language u else []) ++ (if w then wrap else []) ++ mark color ok n ++ txt " " in
      let st f m e z := State (r_file q) n (S (total s)) lc' u (bump language (ltotal s)) m f language e z in
      if ok then Ok (st (failed s) (misses s) (errors s) (summary s), out)
      else obind (shown (r_xml q) (r_again q)) (fun '(a, b) =>
           obind (error_text color language u (r_file q) n a b) (fun e =>
           Ok (st (S (failed s)) (bump language (misses s)) (errors s ++ [e]) (add_summary (summary_head language u (r_file q)) n (summary s)), out)))
  end.
Fixpoint entries (color : bool) (qs : list request) (s : state) : outcome (state * bytes) :=
  match qs with
  | [] => Ok (s, [])
  | q :: qs => obind (entry color q s) (fun r => obind (entries color qs (fst r)) (fun t => Ok (fst t, snd r ++ snd t)))
  end.

(** 199-204, 211-216: std::setw(4) is for the number; [percent] is std::setprecision(2) *)
Definition percentage (percent : nat -> nat -> bytes) (m n : nat) : bytes :=
  right_in 4 (if Nat.eqb m 0 || Nat.leb n (m * 100) then percent m n else txt "<1") ++ txt "%" ++ [10].
Definition row (name : bytes) (percent : nat -> nat -> bytes) (m n : nat) : bytes :=
  left_in 12 name ++ right_in 6 (digits m) ++ right_in 6 (digits n) ++ [9] ++ percentage percent m n.
(** ParserTest.cpp:178-220 [ParserTest::report] *)
Definition report (color : bool) (percent : nat -> nat -> bytes) (s : state) : bytes :=
  match total s with
  | O => []
  | _ => [10; 10] ++ txt "Errors:" ++ [10] ++ concat (errors s) ++ [10; 10] ++ txt "Summary:" ++ [10] ++ concat (map (fun x => x ++ [10]) (sort (summary s))) ++
         dark color ++ [10] ++ txt "Counts: " ++ plain color ++ row (txt "Total") percent (failed s) (total s) ++
         concat (map (fun '(l, n) => txt "        " ++ row l percent (at_key l (misses s)) n) (ltotal s))
  end.
(** the text written by a run *)
Definition parser_test (color : bool) (percent : nat -> nat -> bytes) (qs : list request) : outcome bytes :=
  obind (entries color qs nothing) (fun '(s, out) => Ok (out ++ report color percent s)).
