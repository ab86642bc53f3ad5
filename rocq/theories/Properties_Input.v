(** Properties C31, C40, C41 and C42: how the command-line client takes its inputs and names its outputs.
    [add_uri]: what an input given on the command line becomes; [split_uri], [uri_protocol], [uri_resource]:
    what is made of it; [input_of isdir i]: the input [i], where [isdir] is what the file system says;
    [input_text isdir t]: the sources of --text=[t]; [filelist b]: the names in a list with the content [b];
    [UB]: the program reads or resizes outside of a string.  Vocabulary: Input_Spec.v. *)
From Verif Require Import Base Text_Model Text_Spec Writer_Model Writer_Spec Writer_Proofs10 Input_Model Input_Spec Input_Proofs Input_Proofs2 Input_Proofs3 Input_Proofs4.

(** * C31 *)
(** What was joined is split again. *)
Theorem C31_split : forall protocol resource, no_byte 58 protocol ->
  split_uri (protocol ++ txt "://" ++ resource) = (protocol, resource) /\
  uri_protocol (protocol ++ txt "://" ++ resource) = protocol /\ uri_resource (protocol ++ txt "://" ++ resource) = resource.
Proof. exact split_prefixed. Qed.
Print Assumptions C31_split.
(** Any input with a separator is split at the first one; others have no protocol. *)
Theorem C31_split_first : forall i protocol resource, split_uri i = (protocol, resource) -> contains i (txt "://") ->
  i = protocol ++ txt "://" ++ resource /\ (forall x y, protocol ++ txt "://" = x ++ txt "://" ++ y -> y = []) /\
  uri_protocol i = protocol /\ uri_resource i = resource.
Proof. exact split_any. Qed.
Print Assumptions C31_split_first.
Theorem C31_split_none : forall i, ~ contains i (txt "://") -> split_uri i = ([], i) /\ uri_protocol i = [] /\ uri_resource i = i.
Proof. exact split_none. Qed.
Print Assumptions C31_split_none.
(** A prefix is left alone, and adding one twice is adding it once. *)
Theorem C31_prefixed : forall i, contains i (txt "://") -> add_uri i = i.
Proof. exact add_prefixed. Qed.
Print Assumptions C31_prefixed.
Theorem C31_idempotent : forall i, add_uri (add_uri i) = add_uri i.
Proof. exact add_once. Qed.
Print Assumptions C31_idempotent.
Theorem C31_local_partial : forall i,
  ~ contains i (txt "://") -> i <> txt "-" -> i <> txt "/dev/stdin" -> ~ (contains i (txt "http:") /\ contains i (txt "https:")) ->
  add_uri i = txt "file" ++ txt "://" ++ i /\ uri_protocol (add_uri i) = txt "file" /\ uri_resource (add_uri i) = i.
Proof. exact add_local. Qed.
Print Assumptions C31_local_partial.
(** As an input: its name is the one given, and the containers it is in are read off the end of it, so that
    what remains, [in_plain], decides whether it is srcML. *)
Theorem C31_input_partial : forall isdir i, i <> [] ->
  ~ contains i (txt "://") -> i <> txt "-" -> i <> txt "/dev/stdin" -> ~ (contains i (txt "http:") /\ contains i (txt "https:")) ->
  no_byte 63 i ->
  exists s, input_of isdir i = Ok s /\ in_protocol s = txt "file" /\ in_resource s = i /\ in_isdir s = isdir i /\
    (isdir i = false -> exists es, i = in_plain s ++ concat (rev es) /\ Forall container es /\
       in_compressions s = filter is_compressed es /\ in_archives s = filter is_archive_ext es /\
       extension_of (in_plain s) (in_extension s) /\ ~ container (in_extension s) /\
       (in_state s = KSrcml <-> in_extension s = txt ".xml" \/ in_extension s = txt ".srcml") /\ in_state s <> KIndeterminate).
Proof. exact local_kind. Qed.
Print Assumptions C31_input_partial.
Example C31_example :
  add_uri (txt "src/a.cpp.gz") = txt "file://src/a.cpp.gz" /\ add_uri (txt "-") = txt "stdin://-" /\
  split_uri (txt "http://h/a://b") = (txt "http", txt "h/a://b") /\
  exists s, input_of (fun _ => false) (txt "src/a.xml.tar.gz") = Ok s /\ in_plain s = txt "src/a.xml" /\
    in_compressions s = [txt ".gz"] /\ in_archives s = [txt ".tar"] /\ in_state s = KSrcml.
Proof. repeat split. eexists. split; [vm_compute; reflexivity|]. repeat split. Qed.
(** Where it fails: a question mark ends the name of a local file too; a name with "http:" and "https:" in it
    gets no prefix; and an empty resource is asked for its last character. *)
Theorem C31_question_refuted : ~ forall i s, ~ contains i (txt "://") -> input_of (fun _ => false) i = Ok s -> in_resource s = i \/ i = txt "/dev/stdin".
Proof.
  intros H. assert (C : ~ contains (txt "what?.c") (txt "://")) by (apply not_contains; [discriminate|reflexivity]).
  destruct (H (txt "what?.c") _ C eq_refl) as [E|E]; vm_compute in E; discriminate E.
Qed.
Print Assumptions C31_question_refuted.
Theorem C31_http_refuted : ~ forall i, contains (add_uri i) (txt "://").
Proof. intros H. assert (C : ~ contains (add_uri (txt "http:https:")) (txt "://")) by (apply not_contains; [discriminate|reflexivity]). exact (C (H _)). Qed.
Print Assumptions C31_http_refuted.
Theorem C31_empty_refuted : forall isdir protocol, no_byte 58 protocol -> input_of isdir (protocol ++ txt "://") = UB.
Proof. exact input_empty. Qed.
Print Assumptions C31_empty_refuted.

(** * C40 *)
(** Any text is a sequence of items, but for a backslash at its end.  The items are decoded: each unit of
    the result has the bytes they stand for, and an escape for zero begins a new unit. *)
Theorem C40_items : forall t, no_byte 0 t -> exists l tail, t = render l ++ tail /\ items_ok l tail /\ (tail = [] \/ tail = [92%N]).
Proof. exact every_text. Qed.
Print Assumptions C40_items.
Theorem C40_decoded_partial : forall isdir l,
  render l <> [] -> ~ contains (render l) (txt "://") -> items_ok l [] -> no_byte 0 (render l) ->
  input_text isdir (render l) = Ok (sources l).
Proof. exact text_decoded. Qed.
Print Assumptions C40_decoded_partial.
(** The digits. *)
Theorem C40_digits : forall c, (is_hex c = true <-> exists v, In (c, v) hex_values) /\ (forall v, In (c, v) hex_values -> hex_digit c = v) /\
  (is_oct c = true <-> In c (txt "01234567")).
Proof. exact hex_digits_right. Qed.
Print Assumptions C40_digits.
Example C40_example : input_text (fun _ => false) (txt "int a;\n\x0;b\101\\\q") = Ok [txt "int a;" ++ [10%N]; txt ";bA\\\q"] /\
  exists l, txt "int a;\n\x0;b\101\\\q" = render l /\ items_ok l [] /\ sources l = [txt "int a;" ++ [10%N]; txt ";bA\\\q"].
Proof.
  split; [vm_compute; reflexivity|]. exists [IRun (txt "int a;"); INamed 110 10; IHex (txt "0"); IRun (txt ";b"); IOct (txt "101"); IOther 92; IOther 113].
  split; [reflexivity|]. split; [|vm_compute; reflexivity]. cbn [items_ok item_ok].
  repeat split; try (intros E; vm_compute in E; discriminate E); try (vm_compute; repeat constructor; try discriminate; lia);
    try (intros E; vm_compute in E; repeat (destruct E as [E|E]; [discriminate E|]); exact E).
Qed.
(** Where it fails: a backslash at the end, or no text at all, is read past the end of the string; a text
    with "://" in it loses everything before; and an octal escape for 256 is a zero byte in a unit. *)
Theorem C40_dangling_refuted : forall isdir l, ~ contains (render l ++ [92%N]) (txt "://") -> items_ok l [92%N] -> no_byte 0 (render l) ->
  input_text isdir (render l ++ [92%N]) = UB.
Proof. exact text_dangling. Qed.
Print Assumptions C40_dangling_refuted.
Theorem C40_empty_refuted : forall isdir, input_text isdir [] = UB.
Proof. reflexivity. Qed.
Print Assumptions C40_empty_refuted.
Theorem C40_separator_refuted : forall isdir before after, no_byte 58 before -> after <> [] -> no_byte 0 (before ++ after) -> no_byte 92 after ->
  input_text isdir (before ++ txt "://" ++ after) = Ok [after].
Proof. exact text_separator. Qed.
Print Assumptions C40_separator_refuted.
Theorem C40_octal_refuted : forall isdir, input_text isdir (txt "a\400b") = Ok [[97; 0; 98]%N].
Proof. exact zero_octal. Qed.
Print Assumptions C40_octal_refuted.

(** * C41 *)
(** The names are those of the lines, without the blanks around them; blank lines and comments have none. *)
Theorem C41_names_partial : forall ls rest,
  Forall (no_byte 10) ls -> no_byte 10 rest -> no_byte 0 (unlines ls rest) -> last_ok rest -> unlines ls rest <> [] ->
  exists names, filelist (unlines ls rest) = Ok names /\ named_in (ls ++ [rest]) names.
Proof. exact filelist_names. Qed.
Print Assumptions C41_names_partial.
(** And there is only one such list. *)
Theorem C41_unique : forall ls a b, named_in ls a -> named_in ls b -> a = b.
Proof. exact named_unique. Qed.
Print Assumptions C41_unique.
Example C41_example : filelist (unlines [txt " a.c "; txt "# no"; []] (txt "b.c")) = Ok [txt "a.c"; txt "b.c"] /\ last_ok (txt "b.c").
Proof. split; [vm_compute; reflexivity|exact I]. Qed.
(** Where it fails: a name of one character at the end of the list, without a line end, is lost; an empty
    list has no first and no last character to be asked for. *)
Theorem C41_last_refuted : ~ forall ls rest, Forall (no_byte 10) ls -> no_byte 10 rest -> no_byte 0 (unlines ls rest) -> unlines ls rest <> [] ->
  exists names, filelist (unlines ls rest) = Ok names /\ named_in (ls ++ [rest]) names.
Proof. exact last_lost. Qed.
Print Assumptions C41_last_refuted.
Theorem C41_empty_refuted : filelist [] = UB.
Proof. reflexivity. Qed.
Print Assumptions C41_empty_refuted.

(** * C42 *)
(** Leading "./" is removed from the name of a unit, and nothing else. *)
Theorem C42_clean : forall f, exists k, f = concat (repeat (txt "./") k) ++ clean_name f /\ forall r, clean_name f <> txt "./" ++ r.
Proof. exact clean_ok. Qed.
Print Assumptions C42_clean.
(** A file that is not an archive gives a unit with its name, without the extensions of the compression. *)
Theorem C42_name_partial : forall isdir i s, i <> [] ->
  ~ contains i (txt "://") -> i <> txt "-" -> i <> txt "/dev/stdin" -> ~ (contains i (txt "http:") /\ contains i (txt "https:")) ->
  no_byte 63 i -> isdir i = false -> input_of isdir i = Ok s -> in_archives s = [] ->
  exists es, i = in_plain s ++ concat (rev es) /\ Forall (fun e => In e compression_extensions) es /\ unit_name s = Ok (clean_name (in_plain s)).
Proof. exact unit_named. Qed.
Print Assumptions C42_name_partial.
(** Where a unit goes: into the directory given, under its name; and the directory made is the one it goes to. *)
Theorem C42_output_partial : forall dir f, (dir <> txt "." -> dir <> txt "./" -> output_file dir f = dir ++ txt "/" ++ f) /\
  exists base, output_file dir f = output_path dir f ++ base /\ (base = f /\ no_byte 47 f \/ exists n, base = 47%N :: n /\ no_byte 47 n).
Proof. exact output_always. Qed.
Print Assumptions C42_output_partial.
Theorem C42_unit_file : forall dir f, unit_file dir f = dir ++ txt "/" ++ f ++ txt ".xml" /\
  exists n, unit_file dir f = unit_path dir f ++ 47%N :: n /\ no_byte 47 n.
Proof. exact unit_file_ok. Qed.
Print Assumptions C42_unit_file.
Example C42_example : clean_name (txt "././a/b.c") = txt "a/b.c" /\ output_file (txt "out") (txt "a/b.c") = txt "out/a/b.c" /\ output_path (txt "out") (txt "a/b.c") = txt "out/a" /\
  exists s, input_of (fun _ => false) (txt "./a/b.c.gz") = Ok s /\ in_archives s = [] /\ unit_name s = Ok (txt "a/b.c").
Proof. repeat split. eexists. split; [vm_compute; reflexivity|]. split; reflexivity. Qed.
(** Where it fails: the current directory as the output directory is the root of the file system; a name can
    lead out of the directory; and of "a.gz.iso.bz2" the wrong part is cut off. *)
Theorem C42_here_refuted : forall f, output_file (txt ".") f = txt "/" ++ f /\ output_file (txt "./") f = txt "/" ++ f.
Proof. split; reflexivity. Qed.
Print Assumptions C42_here_refuted.
Theorem C42_outside_refuted : output_file (txt "out") (txt "../x.c") = txt "out/../x.c" /\ clean_name (txt "../x.c") = txt "../x.c".
Proof. split; reflexivity. Qed.
Print Assumptions C42_outside_refuted.
Theorem C42_between_refuted : exists s, input_of (fun _ => false) (txt "a.gz.iso.bz2") = Ok s /\ in_plain s = txt "a" /\ unit_name s = Ok (txt "a.gz.").
Proof. eexists. split; [vm_compute; reflexivity|]. split; reflexivity. Qed.
Print Assumptions C42_between_refuted.
