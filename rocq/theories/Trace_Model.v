(** Model of the log of --verbose (TraceLog.cpp) and of its two users: the conversion to srcML (srcml_write.cpp) and the extraction of all files
    (src_output_filesystem.cpp). Without --debug. *)
From Verif Require Import Base Text_Model Ptest_Model.
Local Open Scope N_scope.

(** TraceLog.hpp:51-57, TraceLog.cpp:30-34; num_error is never changed. [t_out]: what was written on std::clog by the log. Counts are below 2^31. *)
Record trace := Trace { t_enabled : bool; t_count : nat; t_skipped : nat; t_out : bytes }.
Definition new_trace (verbose : bool) : trace := Trace verbose 0 0 [].
(** TraceLog.cpp:43-57 *)
Definition put_char (t : trace) (c : N) : trace :=
  if negb (t_enabled t) then t
  else if negb (c =? 45) then Trace true (S (t_count t)) (t_skipped t) (t_out t ++ right_in 5 (digits (S (t_count t))) ++ [32])
  else Trace true (t_count t) (S (t_skipped t)) (t_out t ++ txt "    - ").
(** TraceLog.cpp:59-67 *)
Definition put_string (t : trace) (s : bytes) : trace :=
  if negb (t_enabled t) then t else Trace true (t_count t) (t_skipped t) (t_out t ++ s ++ [10]).
(** TraceLog.hpp:46-48 *)
Definition skip (t : trace) : trace := Trace (t_enabled t) (t_count t) (S (t_skipped t)) (t_out t).
(** TraceLog.cpp:69-76 *)
Definition end_trace (t : trace) : bytes :=
  if negb (t_enabled t) then t_out t
  else t_out t ++ [10] ++ txt "Source Files: " ++ digits (t_count t) ++ [9] ++ txt "Other Files: " ++ digits (t_skipped t) ++ [9] ++ txt "Errors: " ++ digits 0
         ++ [9] ++ txt "Total Files: " ++ digits (t_count t + t_skipped t + 0) ++ [10].

(** what arrives at srcml_write_request (in the order of C25), without results of transformations and without --parser-test: a file without a
    language, a parsed unit, another status *)
Inductive answer :=
| NoLanguage (filename : option bytes)
| Parsed (language : bytes) (loc : nat) (hash filename : option bytes)
| Failed.
(** srcml_write.cpp:44-63 and 214-239 *)
Definition name_text (f : option bytes) : bytes := match f with Some f => f | None => [] end.
Definition with_space (f : option bytes) : bytes := match f with Some f => 32 :: f | None => [] end.
Definition log_request (verbose quiet : bool) (t : trace) (r : option answer) : trace :=
  match r with
  | None => t
  | Some (NoLanguage f) =>
      if verbose then if negb quiet then put_string (put_char t 45) (right_in 52 [32] ++ name_text f) else skip t else t
  | Some (Parsed l n h f) =>
      if verbose then put_string (put_char t 97) (left_in 4 l ++ [32] ++ right_in 5 (digits n) ++ with_space h ++ with_space f) else t
  | Some Failed => t
  end.
(** create_srcml.cpp:305 to the end of its scope *)
Definition create_log (verbose quiet : bool) (rs : list (option answer)) : bytes :=
  end_trace (fold_left (log_request verbose quiet) rs (new_trace verbose)).

(** src_output_filesystem.cpp:29-67: the names of the units of one archive; [k]: the variable count, an int that becomes a char for the log *)
Fixpoint log_units (prefix : bytes) (k : nat) (t : trace) (us : list (option bytes)) : trace :=
  match us with
  | [] => t
  | None :: us => log_units prefix k t us
  | Some f :: us => log_units prefix (S k) (put_string (put_char t (N.of_nat (S k) mod 256)) (prefix ++ [47] ++ f)) us
  end.
Definition prefix_of (dir : bytes) : bytes := if beqb dir (txt ".") || beqb dir (txt "./") then [] else dir.
(** create_src.cpp:93-104 *)
Definition extract_log (verbose : bool) (dir : bytes) (archives : list (list (option bytes))) : bytes :=
  end_trace (fold_left (fun t us => log_units (prefix_of dir) 0 t us) archives (new_trace verbose)).
