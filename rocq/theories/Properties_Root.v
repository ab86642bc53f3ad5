(** C43: the settings an archive writes on its root are restored by reading it. *)
From Verif Require Import Base Text_Model Text_Spec Api_Model Api_Spec Writer_Model Writer_Spec Archive_Model Archive_Spec Root_Model Root_Spec Root_Proofs Root_Proofs7 Root_Proofs8 Root_AnySpec Root_Any Root_Atoi.
Local Open Scope N_scope.

(** The root tag of every archive that calls and reading can produce (expressible settings, namespaces declared, no stored
    encoding, tab stop an int) is a start tag, and reading it into any archive restores the settings.
    Missing: what the refutations below show, and the prefixes of cpp, openmp, and of position and error without their option. *)
Theorem C43_root_restored_partial : forall b a al a0 al0, produced (a, al) -> expressible a al -> N.testbit (a_options a) 14 = true ->
  N.testbit (a_options a) 8 = true -> N.testbit (a_options a) 6 = false -> a_tabstop a < 2 ^ 31 ->
  exists name l, xml_tag (root_tag a al) name l /\ restored b a al a0 al0 (start_root b (sax_namespaces l) (sax_attributes l) (a0, al0)).
Proof. exact root_restored. Qed.
Print Assumptions C43_root_restored_partial.
(** a start tag can be read in one way only *)
Theorem C43_one_reading : forall s n l n' l', xml_tag s n l -> xml_tag s n' l' -> n = n' /\ l = l'.
Proof. exact xml_tag_unique. Qed.
Print Assumptions C43_one_reading.
(** the macros, all with token and type *)
Theorem C43_macros_restored_partial : forall ms a, Forall (fun p => fst p <> [] /\ snd p <> [] /\ xml_chars (fst p) /\ xml_chars (snd p)) ms ->
  exists ls, Forall2 (fun p l => exists tag, macro_xml p = tag ++ txt "/>" /\ xml_tag tag (txt "macro-list") l) ms ls /\
    a_macros (fold_left (fun a l => meta_tag (txt "macro-list") (sax_attributes l) a) ls a) = a_macros a ++ flat_map (fun p => [fst p; snd p]) ms.
Proof. exact macros_restored. Qed.
Print Assumptions C43_macros_restored_partial.
(** any root at all, produced by srcML or not, read into any archive *)
Theorem C43_any_root : forall b nss ats a al, any_root ats nss a al (start_root b nss ats (a, al)).
Proof. exact any_root_ok. Qed.
Print Assumptions C43_any_root.
(** The number read: blanks, a sign and digits are its value, whatever else follows. *)
Theorem C43_numbers : forall b s k ds n rest, Forall white_char b -> signed s k -> numeral ds n ->
  (match rest with c :: _ => c < 48 \/ 57 < c | [] => True end) -> atoi (b ++ s ++ ds ++ rest) = (k * Z.of_N n)%Z.
Proof. exact atoi_number. Qed.
Print Assumptions C43_numbers.
(** an archive whose encoding is stored is read with src-encoding as an attribute; written again with the same option, its
    root has the attribute twice, which is not XML *)
Theorem C43_store_encoding_refuted : exists a al,
  produced (a, al) /\ expressible a [] /\ N.testbit (a_options a) 6 = true /\ al = [txt "src-encoding"; txt "UTF-8"] /\
  forall name l, ~ xml_tag (root_tag a al) name l.
Proof. exact store_encoding_twice. Qed.
Print Assumptions C43_store_encoding_refuted.
(** the archive's prefix for cpp is not on the root *)
Theorem C43_cpp_prefix_refuted : exists h p, let a := run h archive_create in
  prefix_from_uri a CPP_URI = Some p /\ expressible a [] /\ N.testbit (a_options a) 8 = true /\ (exists name l, xml_tag (root_tag a []) name l) /\
  forall name l, xml_tag (root_tag a []) name l -> prefix_from_uri (fst (start_root true (sax_namespaces l) (sax_attributes l) (archive_create, []))) CPP_URI = None.
Proof. exact cpp_prefix_lost. Qed.
Print Assumptions C43_cpp_prefix_refuted.
(** after srcml_archive_set_options the root declares no namespace at all *)
Theorem C43_set_options_refuted : forall o, exists name l, let a := run [SetOptions o] archive_create in
  N.testbit o 2 = false -> N.testbit o 4 = false -> N.testbit o 5 = false -> N.testbit o 6 = false ->
  root_tag a [] = [60] ++ txt "unit" ++ attrs l /\ xml_tag (root_tag a []) name l /\ sax_namespaces l = [].
Proof. exact set_options_undeclared. Qed.
Print Assumptions C43_set_options_refuted.
(** a macro with an empty type is written but not restored *)
Theorem C43_empty_macro_refuted : forall tok a, xml_chars tok -> exists l,
  xml_tag (txt "<macro-list" ++ attrs [(txt "token", tok); (txt "type", [])]) (txt "macro-list") l /\ meta_tag (txt "macro-list") (sax_attributes l) a = a.
Proof. exact empty_macro_lost. Qed.
Print Assumptions C43_empty_macro_refuted.
Definition example_calls : list call :=
  [RegisterNamespace (Some (txt "x")) (Some (txt "http://x")); EnableOption 52; SetTabstop 4; SetAttr AUrl (Some (txt "a<b")); RegisterNamespace (Some (txt "s")) (Some SRC_URI)].
Example C43_example : let a := run example_calls archive_create in
  produced (a, []) /\ expressible a [] /\ N.testbit (a_options a) 14 = true /\ N.testbit (a_options a) 8 = true /\ N.testbit (a_options a) 6 = false /\ a_tabstop a < 2 ^ 31 /\
  root_tag a [] = txt "<s:unit xmlns:s=""http://www.srcML.org/srcML/src"" xmlns:pos=""http://www.srcML.org/srcML/position"" xmlns:x=""http://x"" revision=""1.0.0"" url=""a&lt;b"" pos:tabs=""4"" options=""CPP_TEXT_ELSE,CPP_MARKUP_IF0""".
Proof.
  cbv zeta. split; [exact (produced_run example_calls)|]. split; [apply expressible_ok; [exact (produced_run example_calls)|vm_compute; reflexivity|vm_compute; reflexivity]|].
  repeat split; vm_compute; reflexivity.
Qed.
