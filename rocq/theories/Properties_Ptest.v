(** The report of the parser test (C64). *)
From Coq Require Import Sorting.Sorted Sorting.Permutation.
From Verif Require Import Base Text_Model Text_Spec Ptest_Model Ptest_Spec Ptest_Format Ptest_Proofs Ptest_Proofs2 Ptest_Proofs3 Ptest_Proofs4 Ptest_Examples.
Local Open Scope N_scope.

(** If every unit has a language, the report ends with the counts: all units, those that fail, and a table, sorted by language, whose rows add up to these. *)
Theorem C64_totals : forall color percent qs out, Forall has_language qs -> qs <> [] -> parser_test color percent qs = Ok out ->
  exists body t, out = body ++ counts_text color percent (number (fun q => negb (same q)) qs) (length qs) t /\ in_order t /\
    list_sum (map t_total t) = length qs /\ list_sum (map t_failed t) = number (fun q => negb (same q)) qs.
Proof. exact all_counts. Qed.
Print Assumptions C64_totals.
(** If the units of a file have one language, the row of a language counts the units in it and those of them that fail, and every language has a row. *)
Theorem C64_languages_partial : forall color percent qs out, uniform qs -> qs <> [] -> parser_test color percent qs = Ok out ->
  exists body t, out = body ++ counts_text color percent (number (fun q => negb (same q)) qs) (length qs) t /\ in_order t /\ counts qs t.
Proof. exact languages_count. Qed.
Print Assumptions C64_languages_partial.
(** The text: for each file a line with its language and the URL last seen, then the numbers of its units from 1 on, each marked if it fails; the
    errors, one for each failing unit, in order; the summary, sorted, with one line for failures of one file that follow each other. *)
Theorem C64_text : forall color percent gs out, files None gs -> gs <> [] -> parser_test color percent (concat gs) = Ok out ->
  exists ts es ls cs, out = concat ts ++ errors_text es ++ summary_text ls ++ cs /\ Forall2 (file_text color) (items [] gs) ts /\
    Forall2 (error_of color) (filter failing (concat (items [] gs))) es /\ sorted_lines ls /\
    (Forall fits (concat (items [] gs)) -> exists rs, runs_of (filter failing (concat (items [] gs))) rs /\ Permutation (map line_of rs) ls).
Proof. exact whole_report. Qed.
Print Assumptions C64_text.
(** What is shown of a failure: both texts, or what differs in them. *)
Theorem C64_shown_partial : forall a b s t, shown a b = Ok (s, t) -> a <> b -> in_line a b -> cut a b s t.
Proof. exact shown_cut. Qed.
Print Assumptions C64_shown_partial.
(** There is a report if every failing unit is short and not empty. *)
Theorem C64_report_partial : forall color percent qs, Forall harmless qs -> exists out, parser_test color percent qs = Ok out.
Proof. exact report_there. Qed.
Print Assumptions C64_report_partial.

(** How these are written: numbers in decimal, fields padded to their width, less than one per cent as <1. *)
Theorem C64_format :
  (forall name percent m n, row_text name percent m n (row name percent m n)) /\ (forall color ok n, number_text color ok n (mark color ok n)) /\
  (forall l u, file_line l u (header l u)) /\ next_line wrap /\ (forall l u f, summary_line l u f (summary_head l u f)) /\ (forall n, decimal (digits n) (N.of_nat n)) /\
  (forall l u f n a b e, error_text false l u f n a b = Ok e -> error_lines l u f n a b e).
Proof. exact (conj row_format (conj mark_format (conj header_format (conj wrap_format (conj head_format (conj digits_decimal error_format)))))). Qed.
Print Assumptions C64_format.

(** In a long unit, text that parsing again leaves out is undefined behaviour: the comparison from the end goes past the beginning. *)
Theorem C64_left_out_refuted : forall p c x d q, long (p ++ (c :: x) ++ d :: q) (p ++ d :: q) -> p = [] \/ last p 0 = 10 -> c <> d -> c <> 10 ->
  shown (p ++ (c :: x) ++ d :: q) (p ++ d :: q) = UB.
Proof. exact left_out. Qed.
Print Assumptions C64_left_out_refuted.
(** Text that is added is, too: the last byte is taken of an empty string. *)
Theorem C64_added_refuted : forall color l u f n p c x d q, long (p ++ d :: q) (p ++ (c :: x) ++ d :: q) -> p = [] \/ last p 0 = 10 -> c <> d -> d <> 10 ->
  obind (shown (p ++ d :: q) (p ++ (c :: x) ++ d :: q)) (fun '(a, b) => error_text color l u f n a b) = UB.
Proof. exact added. Qed.
Print Assumptions C64_added_refuted.
Theorem C64_lines_refuted : shown seven less = UB /\ (forall color percent f, parser_test color percent [Request None (txt "a.xml") (Some (txt "C")) seven less] = Ok f -> False) /\
  (forall color percent f, parser_test color percent [Request None (txt "a.xml") (Some (txt "C")) less seven] = Ok f -> False).
Proof. exact lines_lost. Qed.
Print Assumptions C64_lines_refuted.
(** If the texts differ where a line of the first ends, what is left out is not the same in both. *)
Theorem C64_line_end_refuted : shown shorter longer = Ok (txt "cd", [10] ++ txt "c") /\ ~ exists p q, shorter = p ++ txt "cd" ++ q /\ longer = p ++ ([10] ++ txt "c") ++ q.
Proof. exact line_end. Qed.
Print Assumptions C64_line_end_refuted.
(** A unit is counted in the language of the first unit of its file; *)
Theorem C64_mixed_refuted : forall percent, reported false percent mixed 0 2 [(txt "C", 0%nat, 2%nat)].
Proof. exact mixed_counts. Qed.
Print Assumptions C64_mixed_refuted.
(** if that has none it is not counted, and the others of its file count in the language of the file before. *)
Theorem C64_unnamed_refuted : forall percent, reported false percent unnamed 0 2 [(txt "C", 0%nat, 2%nat)].
Proof. exact unnamed_counts. Qed.
Print Assumptions C64_unnamed_refuted.
(** A file without URL shows that of the file before. *)
Theorem C64_url_refuted : files None old_url /\
  forall percent, exists rest, parser_test false percent (concat old_url) = Ok (header (txt "C") (txt "first") ++ txt "1 " ++ header (txt "C") (txt "first") ++ txt "1 " ++ rest).
Proof. exact old_url_shown. Qed.
Print Assumptions C64_url_refuted.
Example C64_example : files None plain_units /\ uniform (concat plain_units) /\ Forall has_language (concat plain_units) /\
  forall percent, reported false percent (concat plain_units) 1 3 [(txt "C", 1%nat, 2%nat); (txt "Java", 0%nat, 1%nat)].
Proof. split; [exact plain_files|]. split; [exact plain_uniform|]. split; [repeat constructor; discriminate|exact plain_report]. Qed.
Example C64_example_shown : shown seven changed = Ok (txt "7", txt "xyz") /\ in_line seven changed /\ cut seven changed (txt "7") (txt "xyz").
Proof. exact right_cut. Qed.
Example C64_example_left_out : long seven less /\ seven = six ++ (55 :: [10]) ++ 56 :: [10] /\ less = six ++ 56 :: [10] /\ last six 0 = 10.
Proof. split; [left; vm_compute; lia|]. repeat split. Qed.
