(** Property C32: the client's formats for metadata, and the queries built on them.
    [pretty stray a only xml t]: what --pretty=[t] prints for an archive with the metadata [a]; [only]: the
    unit asked for with --unit, 0 if none; [xml]: with -X (the archive then has only that unit); [stray]: the
    byte in memory two before the template; [UB]: the program reads outside of the template or throws.
    [show_metadata]: the same for --show-encoding and so on.  [split_sections]: header, body and footer.
    A section is a list of items ([frender]: as written in the template).  Vocabulary: Pretty_Spec.v. *)
From Verif Require Import Base Text_Model Text_Spec Writer_Model Writer_Spec Pretty_Model Pretty_Spec Pretty_Proofs Pretty_Proofs2 Pretty_Proofs3.

(** * The sections *)
(** Header, body and footer stand around the braces, one character away. *)
Theorem C32_sections_partial : forall stray h x y b z w f,
  no_brace (h ++ [x; y] ++ b ++ [z]) -> x <> 37%N -> z <> 37%N ->
  split_sections stray (h ++ [x; 123; y]%N ++ b ++ [z; 125; w]%N ++ f) = Ok (Template (Some h) (Some b) (Some f)).
Proof. exact split_three. Qed.
Print Assumptions C32_sections_partial.
Theorem C32_no_header_partial : forall stray y b z w f, no_brace ([y] ++ b ++ [z]) -> z <> 37%N ->
  split_sections stray ([123; y]%N ++ b ++ [z; 125; w]%N ++ f) = Ok (Template None (Some b) (Some f)).
Proof. exact split_two. Qed.
Print Assumptions C32_no_header_partial.
Theorem C32_body_only_partial : forall stray b, no_brace b -> stray <> 37%N -> split_sections stray b = Ok (Template None (Some b) None).
Proof. exact split_one. Qed.
Print Assumptions C32_body_only_partial.
(** Braces after a percent sign are text. *)
Theorem C32_escaped_braces : forall stray a b c, no_brace a -> no_brace b ->
  split_sections stray (a ++ txt "%{" ++ b ++ txt "%}" ++ c) = Ok (Template None (Some (a ++ txt "{" ++ b ++ txt "}" ++ c)) None).
Proof. exact split_escaped. Qed.
Print Assumptions C32_escaped_braces.

(** * What is printed *)
(** The header, the body for each unit, the footer: in each, text as it is, %% as a percent sign, fields by
    their values in order. *)
Theorem C32_format_partial : forall stray a only xml h x y b z w f,
  only = 0 \/ xml = true -> ma_namespaces a <> [] -> ma_units a <> [] \/ f = [] ->
  section_ok archive_fields h -> section_ok unit_fields b -> section_ok total_fields f ->
  no_brace (frender h ++ [x; y] ++ frender b ++ [z]) -> x <> 37%N -> z <> 37%N ->
  pretty stray a only xml (frender h ++ [x; 123; y]%N ++ frender b ++ [z; 125; w]%N ++ frender f) =
  Ok (Printed (section_shows (archive_value a) no_spaces h ++ each_unit a b 0 (ma_units a) ++ section_shows (total_value a) no_spaces f)).
Proof. exact pretty_whole. Qed.
Print Assumptions C32_format_partial.
Theorem C32_unit_format_partial : forall stray a only xml b,
  only = 0 \/ xml = true -> ma_namespaces a <> [] -> section_ok unit_fields b -> no_brace (frender b) -> stray <> 37%N ->
  pretty stray a only xml (frender b) = Ok (Printed (each_unit a b 0 (ma_units a))).
Proof. exact pretty_body. Qed.
Print Assumptions C32_unit_format_partial.
(** A field that the section has not is an error, reported with its position. *)
Theorem C32_refused_header : forall stray a only xml s c h x y b z w f,
  no_byte 37 s -> ~ In c header_fields -> c <> 37%N -> c <> 115%N ->
  no_brace ((s ++ 37%N :: c :: h) ++ [x; y] ++ b ++ [z]) -> x <> 37%N -> z <> 37%N ->
  pretty stray a only xml ((s ++ 37%N :: c :: h) ++ [x; 123; y]%N ++ b ++ [z; 125; w]%N ++ f) = Ok (FormatError 1 (S (length s))).
Proof. exact refused_header. Qed.
Print Assumptions C32_refused_header.
Theorem C32_refused_body : forall stray a only xml s c b,
  no_byte 37 s -> ~ In c body_fields -> c <> 37%N -> c <> 115%N -> no_brace (s ++ 37%N :: c :: b) -> stray <> 37%N ->
  pretty stray a only xml (s ++ 37%N :: c :: b) = Ok (FormatError 2 (S (length s))).
Proof. exact refused_body. Qed.
Print Assumptions C32_refused_body.
Theorem C32_refused_footer : forall stray a only xml y b z w s c f, ma_namespaces a <> [] -> section_ok unit_fields b ->
  no_byte 37 s -> ~ In c footer_fields -> c <> 37%N -> c <> 115%N -> no_brace ([y] ++ frender b ++ [z]) -> z <> 37%N ->
  pretty stray a only xml ([123; y]%N ++ frender b ++ [z; 125; w]%N ++ s ++ 37%N :: c :: f) = Ok (FormatError 3 (S (length s))).
Proof. exact refused_footer. Qed.
Print Assumptions C32_refused_footer.
(** For any format, the program comes to an end. *)
Theorem C32_terminates : forall allowed ns_size t, parse_template allowed ns_size t <> NoFuel.
Proof. exact never_no_fuel. Qed.
Print Assumptions C32_terminates.
(** Numbers are decimal. *)
Theorem C32_numbers : forall n, (n < 10 ^ 64)%N -> decimal (dec_of n) n.
Proof. exact dec_of_ok. Qed.
Print Assumptions C32_numbers.
(** The queries: each value on its line, for the archive and then for every unit. *)
Theorem C32_queries_partial : forall stray a only xml q, only = 0 \/ xml = true -> ma_namespaces a <> [] ->
  let one := number_asked q =? 1 in
  show_metadata stray a only xml q =
  Ok (Printed (show_lines one (asked_header a q) ++ concat (map (fun u => show_lines one (asked_unit q u)) (ma_units a)))).
Proof. exact metadata_counted. Qed.
Print Assumptions C32_queries_partial.
Definition example_units : list umeta :=
  [UMeta (Some (txt "a.c")) None (Some (txt "C")) None None None; UMeta None None (Some (txt "C++")) None None None].
Definition example_archive : ameta := AMeta (Some (txt "UTF-8")) None (Some (txt "2")) None [(txt "", txt "src"); (txt "p", txt "pos")] example_units.
Example C32_example :
  let h := [FText (txt "v="); FField 86] in
  let b := [FField 105; FText (txt ":"); FField 102; FPercent; FPercent; FSpaces NsPrefix] in
  let f := [FField 67; FPercent] in
  section_ok archive_fields h /\ section_ok unit_fields b /\ section_ok total_fields f /\
  frender h ++ [32; 123; 32]%N ++ frender b ++ [32; 125; 32]%N ++ frender f = txt "v=%V { %i:%f%%%%%N:p } %C%%" /\
  pretty 0 example_archive 0 false (txt "v=%V { %i:%f%%%%%N:p } %C%%") = Ok (Printed (txt "v=20:a.c%% p1:%% p2%")) /\
  show_metadata 0 example_archive 0 false (Queries false false true true false false false) =
    Ok (Printed (concat (map (fun s => txt s ++ [10%N]) ["filename=""a.c"""; "language=""C"""; "filename="""""; "language=""C++"""]%string))).
Proof.
  cbv zeta. split; [|split; [|split; [|split; [reflexivity|split; vm_compute; reflexivity]]]]; (split; [|intros K; discriminate K]); cbn [fitems_ok fitem_ok].
  - repeat split; try discriminate; try (vm_compute; tauto); try (vm_compute; repeat constructor; discriminate).
  - repeat split; try discriminate; try (vm_compute; tauto); try (vm_compute; repeat constructor; discriminate); right; left; eexists; reflexivity.
  - repeat split; try discriminate; try (vm_compute; tauto); left; reflexivity.
Qed.

(** * Where it fails *)
(** Without braces the byte before the template decides: with a percent sign there, an exception. *)
Theorem C32_outside_refuted : forall b, no_brace b -> split_sections 37 b = UB.
Proof. exact split_stray. Qed.
Print Assumptions C32_outside_refuted.
(** Braces without anything around the body: the brace is the body. *)
Theorem C32_tight_refuted : split_sections 0 (txt "{a}") = Ok (Template None (Some (txt "}")) None).
Proof. reflexivity. Qed.
Print Assumptions C32_tight_refuted.
(** "%%f" is not a percent sign and a letter; "%% " is not a percent sign and a blank. *)
Theorem C32_percent_letter_refuted : pretty 0 example_archive 0 true (txt "%%f") = Ok (Printed (txt "%s")).
Proof. vm_compute. reflexivity. Qed.
Print Assumptions C32_percent_letter_refuted.
Theorem C32_percent_blank_refuted : forall a, pretty 0 a 0 true (txt "%f 100%% done") = Ok (FormatError 2 8).
Proof. intros a. unfold pretty. cbn [obind split_sections]. reflexivity. Qed.
Print Assumptions C32_percent_blank_refuted.
(** A percent sign at the end is read past. *)
Theorem C32_last_percent_refuted : pretty 0 example_archive 0 true (txt "%l 100%") = UB.
Proof. vm_compute. reflexivity. Qed.
Print Assumptions C32_last_percent_refuted.
(** %s, the encoding of a unit, takes the value of the next field. *)
Theorem C32_encoding_refuted : forall u, um_encoding u = Some (txt "UTF-16") -> um_language u = Some (txt "C") ->
  pretty 0 (AMeta None None None None [(txt "", txt "src")] [u]) 0 true (txt "%s %l.") = Ok (Printed (txt "C s.")).
Proof. intros [f h l s t v] E L. cbn in E, L. subst s l. vm_compute. reflexivity. Qed.
Print Assumptions C32_encoding_refuted.
(** %F is never filled in, %N only in the body. *)
Theorem C32_file_refuted : pretty 0 example_archive 0 true (txt "%F { %l } ") = Ok (Printed (txt "???CC++")).
Proof. vm_compute. reflexivity. Qed.
Print Assumptions C32_file_refuted.
Theorem C32_header_namespaces_refuted : pretty 0 example_archive 0 true (txt "%N { %l } ") = Ok (Printed (txt "??? sCC++")).
Proof. vm_compute. reflexivity. Qed.
Print Assumptions C32_header_namespaces_refuted.
(** Text without a field is not printed. *)
Theorem C32_text_only_refuted : pretty 0 example_archive 0 true (txt "files { %l } end") = Ok (Printed (txt "CC++")).
Proof. vm_compute. reflexivity. Qed.
Print Assumptions C32_text_only_refuted.
(** With --unit and without -X no unit is shown. *)
Theorem C32_unit_refuted : forall stray a only b,
  0 < only -> ma_namespaces a <> [] -> section_ok unit_fields b -> no_brace (frender b) -> stray <> 37%N ->
  pretty stray a only false (frender b) = Ok (Printed []).
Proof. exact pretty_skips. Qed.
Print Assumptions C32_unit_refuted.
(** The number of units of an empty archive is 1. *)
Theorem C32_count_refuted : pretty 0 (AMeta None None None None [(txt "", txt "src")] []) 0 true (txt "%V { %f } %C") = Ok (Printed (txt "1")).
Proof. vm_compute. reflexivity. Qed.
Print Assumptions C32_count_refuted.
(** %N:u:p is accepted, but never filled in. *)
Theorem C32_pairs_refuted : pretty 0 example_archive 0 true (txt "%l%N:u:p;") = Ok (Printed (txt "C??? s;C++??? s;")).
Proof. vm_compute. reflexivity. Qed.
Print Assumptions C32_pairs_refuted.
