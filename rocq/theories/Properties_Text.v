(** Properties C05, C06, C07, C19, C20, C28, C29, C30: text-level functions. *)
From Verif Require Import Base Reader_Model Reader_Spec Text_Model Text_Spec Text_Proofs Reader_Lines Text_Proofs2 Text_Proofs3.
Local Open Scope N_scope.

(** ** C05: character data.  Missing from the full property: texts containing a NUL byte. *)
Theorem C05_escaped_partial : forall s, no_byte 0 s -> xml_text (process_text s) s.
Proof. exact process_text_ok. Qed.
Print Assumptions C05_escaped_partial.

(** the value of character data is unique, so what is read back is the text written; and there is no
    raw '<' or '>' in it *)
Theorem C05_value_unique : forall e d1 d2, xml_text e d1 -> xml_text e d2 -> d1 = d2.
Proof. exact (fun e d1 d2 H1 H2 => xml_text_det e d1 H1 d2 H2). Qed.
Print Assumptions C05_value_unique.
Theorem C05_no_raw : forall e d, xml_text e d -> no_byte 60 e /\ no_byte 62 e.
Proof. exact xml_text_raw. Qed.
Print Assumptions C05_no_raw.

(** A NUL byte hides the rest of the text from the check: the text NUL '<' is written raw. *)
Theorem C05_nul_refuted : exists s, forall d, ~ xml_text (process_text s) d.
Proof. exact (ex_intro _ [0; 60] nul_refutes). Qed.
Print Assumptions C05_nul_refuted.

Example C05_example : no_byte 0 (txt "a<b && c>d") /\ process_text (txt "a<b && c>d") = txt "a&lt;b &amp;&amp; c&gt;d".
Proof. split; [repeat (constructor; [discriminate|]); constructor|reflexivity]. Qed.

(** ** C06: control characters, for both choices of char signedness; in fact for every byte *)
Theorem C06_escape_round_trip : forall signed c, c < 256 ->
  read_escape (escape_attr (char_to_int signed c)) = c /\
  Forall (fun x => x <> 60 /\ x <> 62 /\ x <> 38 /\ x <> 34 /\ 32 <= x) (escape_attr (char_to_int signed c)).
Proof. exact escape_ok. Qed.
Print Assumptions C06_escape_round_trip.

(** the attribute is 0x and the two lower-case hexadecimal digits *)
Theorem C06_escape_form : forall signed c, c < 32 ->
  escape_attr (char_to_int signed c) = [48; 120; 48 + c / 16; (if c mod 16 <? 10 then 48 + c mod 16 else 87 + c mod 16)].
Proof. exact escape_attr_control. Qed.
Print Assumptions C06_escape_form.

Example C06_example : escape_attr (char_to_int true 12) = txt "0x0c" /\ read_escape (txt "0x0c") = 12.
Proof. split; reflexivity. Qed.

(** ** C07: position numbers *)
Theorem C07_number : forall s n, pos_buffer s -> n < 2 ^ 31 ->
  exists s' ds, positoa s n = Ok (s', ds) /\ pos_buffer s' /\ decimal ds n.
Proof. exact positoa_ok. Qed.
Print Assumptions C07_number.

(** The two attributes; nothing is written for a token that ends before it starts. *)
Theorem C07_attributes : forall s pre t, pos_buffer s ->
  p_line t < 2 ^ 31 -> p_col t < 2 ^ 31 -> p_endline t < 2 ^ 31 -> p_endcol t < 2 ^ 31 ->
  exists s' out, add_position s pre t = Ok (s', out) /\ pos_buffer s' /\
    ((p_endline t < p_line t \/ (p_endline t = p_line t /\ p_endcol t < p_col t)) -> out = []) /\
    ((p_line t < p_endline t \/ (p_endline t = p_line t /\ p_col t <= p_endcol t)) ->
      exists l c l' c', decimal l (p_line t) /\ decimal c (p_col t) /\ decimal l' (p_endline t) /\ decimal c' (p_endcol t) /\
      out = txt " " ++ (match pre with [] => [] | _ => pre ++ txt ":" end) ++ txt "start=""" ++ l ++ txt ":" ++ c ++ txt """ " ++
            (match pre with [] => [] | _ => pre ++ txt ":" end) ++ txt "end=""" ++ l' ++ txt ":" ++ c' ++ txt """").
Proof. exact add_position_ok. Qed.
Print Assumptions C07_attributes.

Example C07_example : pos_buffer (repeat 0 16) /\
  positoa (repeat 0 16) 2147483647 = Ok (repeat 0 5 ++ txt "2147483647" ++ [0], txt "2147483647") /\
  option_map snd (match add_position (repeat 0 16) (txt "pos") (Position 1 4 2 10) with Ok r => Some r | UB => None end)
    = Some (txt " pos:start=""1:4"" pos:end=""2:10""").
Proof. split; [split; reflexivity|]. split; vm_compute; reflexivity. Qed.

(** ** C19: line endings of unparsed source *)
Theorem C19_line_endings : forall e src full rest, lines_of src full rest ->
  unparse e src = concat (map (fun l => l ++ ending e) full) ++ rest.
Proof. exact unparse_lines. Qed.
Print Assumptions C19_line_endings.
(** every source has such a division into lines *)
Theorem C19_lines_exist : forall src, exists full rest, lines_of src full rest.
Proof. exact lines_exist. Qed.
Print Assumptions C19_lines_exist.
Theorem C19_auto_unchanged : forall src, unparse EOL_AUTO src = src.
Proof. exact (fun src => eq_refl). Qed.
Print Assumptions C19_auto_unchanged.
(** Converting back (as the reader does, C01) gives the source, which contains no CR by C01. *)
Theorem C19_back : forall e src, no_byte 13 src -> eol_norm (unparse e src) = src.
Proof. exact unparse_back. Qed.
Print Assumptions C19_back.
(** To memory the same bytes, provided the source has no NUL.  Missing: sources with a NUL byte. *)
Theorem C19_memory_partial : forall e src, no_byte 0 src -> unparse_memory e src = unparse e src.
Proof. exact unparse_memory_ok. Qed.
Print Assumptions C19_memory_partial.
Theorem C19_memory_nul_refuted : exists e src, unparse_memory e src <> unparse e src.
Proof. exact memory_nul_witness. Qed.
Print Assumptions C19_memory_nul_refuted.
Example C19_example : lines_of (txt "a" ++ [10] ++ txt "bc") [txt "a"] (txt "bc") /\
  unparse EOL_CRLF (txt "a" ++ [10] ++ txt "bc") = txt "a" ++ [13; 10] ++ txt "bc".
Proof. repeat split; repeat (constructor; try discriminate). Qed.

(** ** C20: line counts *)
Theorem C20_loc_written : forall src, line_count src (loc_written src).
Proof. exact loc_written_ok. Qed.
Print Assumptions C20_loc_written.
(** read from srcML: however the text is divided into events, the count is that of the source text
    and the same as for the unit when it was written.  [generated]: no CDATA section, no escaped LF,
    which srcML never writes. *)
Theorem C20_loc_read_partial : forall evs, Forall generated evs ->
  fst (read_unit_body evs) = flat_map event_text evs /\
  line_count (fst (read_unit_body evs)) (snd (read_unit_body evs)) /\
  snd (read_unit_body evs) = loc_written (flat_map event_text evs).
Proof. exact read_loc_ok. Qed.
Print Assumptions C20_loc_read_partial.
(** line feeds in a CDATA section of a document from elsewhere are in the source but not counted *)
Theorem C20_cdata_refuted : exists evs, snd (read_unit_body evs) <> loc_written (fst (read_unit_body evs)).
Proof. exact cdata_witness. Qed.
Print Assumptions C20_cdata_refuted.
(** while the source is read: the count the reader gives is that of the text it delivered, however the
    reads split it.  Missing: the empty source, refuted below. *)
Theorem C20_reader_stream_partial : forall hash s chunks,
  delivers s chunks -> is_bytes (concat chunks) -> no_bom (concat chunks) -> concat chunks <> [] ->
  exists r text, text = eol_norm (flat_map utf8_of_latin1 (concat chunks)) /\
    Reads glibc (open_stream glibc "" hash s) text r /\ line_count text (getLOC glibc r).
Proof. exact reader_lines_stream. Qed.
Print Assumptions C20_reader_stream_partial.
Theorem C20_reader_memory_partial : forall hash input,
  is_bytes input -> no_bom input -> input <> [] ->
  exists r0 r text, text = eol_norm (flat_map utf8_of_latin1 input) /\ open_memory glibc "" hash input = Ok r0 /\
    Reads glibc r0 text r /\ line_count text (getLOC glibc r).
Proof. exact reader_lines_memory. Qed.
Print Assumptions C20_reader_memory_partial.
Theorem C20_reader_empty_refuted : forall hash, exists r, Reads glibc (open_stream glibc "" hash []) [] r /\
  getLOC glibc r = 1%nat /\ ~ line_count [] 1.
Proof. exact reader_lines_empty. Qed.
Print Assumptions C20_reader_empty_refuted.
Example C20_example : read_unit_body [Characters (txt "a"); Markup; Characters [10]; Escape (txt "0x0c"); Characters (txt "b")]
  = ([97; 10; 12; 98], 2%nat) /\
  Forall generated [Characters (txt "a"); Markup; Characters [10]; Escape (txt "0x0c"); Characters (txt "b")].
Proof. split; [reflexivity|]. repeat constructor; discriminate. Qed.

(** ** C28: srcDiff revisions *)
(** For every well-nested fragment the code is free of undefined behaviour and returns what belongs to the
    revision, except that text after the last tag is lost. *)
Theorem C28_extract_partial : forall rev text_only f k, srcdiff rev text_only Both f k ->
  exists k' t, extract_revision f rev text_only = Ok k' /\ k = k' ++ t /\ trailing_text f t.
Proof. exact extract_general. Qed.
Print Assumptions C28_extract_partial.
(** so it is exact for fragments ending with a tag, such as a whole unit *)
Theorem C28_unit : forall rev text_only f k, srcdiff rev text_only Both f k -> ends_with_tag f ->
  extract_revision f rev text_only = Ok k.
Proof. exact extract_tagged. Qed.
Print Assumptions C28_unit.
Theorem C28_no_diff_unchanged : forall rev f, plain_fragment f -> ends_with_tag f -> extract_revision f rev false = Ok f.
Proof. exact extract_plain. Qed.
Print Assumptions C28_no_diff_unchanged.
(** inner srcML ending in text loses it *)
Theorem C28_trailing_text_refuted : exists f k, srcdiff 0 false Both f k /\ extract_revision f 0 false <> Ok k.
Proof. exact trailing_witness. Qed.
Print Assumptions C28_trailing_text_refuted.
(** an empty-element diff tag is taken for a start tag: everything after it belongs to that revision only *)
Theorem C28_empty_diff_refuted :
  extract_revision (txt "<unit><diff:insert/><name/></unit>") 0 false = Ok (txt "<unit>") /\
  extract_revision (txt "<unit><diff:insert></diff:insert><name/></unit>") 0 false = Ok (txt "<unit><name/></unit>").
Proof. exact (conj eq_refl eq_refl). Qed.
Print Assumptions C28_empty_diff_refuted.
(** an unfinished tag is undefined behaviour *)
Theorem C28_unfinished_tag_refuted : extract_revision (txt "a<b") 0 false = UB.
Proof. exact eq_refl. Qed.
Print Assumptions C28_unfinished_tag_refuted.

Example C28_example :
  extract_revision (txt "<unit>a<diff:delete type=""replace"">b</diff:delete><diff:insert>c<x/></diff:insert></unit>") 0 false = Ok (txt "<unit>ab</unit>") /\
  extract_revision (txt "<unit>a<diff:delete type=""replace"">b</diff:delete><diff:insert>c<x/></diff:insert></unit>") 1 false = Ok (txt "<unit>ac<x/></unit>") /\
  srcdiff 0 false OnlyOriginal
   (txt "<diff:" ++ txt "insert" ++ [] ++ [62] ++ (txt "x" ++ []) ++ txt "</diff:" ++ txt "insert" ++ [62] ++ []) ([] ++ []) .
Proof.
  split; [reflexivity|]. split; [reflexivity|].
  apply (sd_diff 0 false OnlyOriginal OnlyModified (txt "insert") [] (txt "x" ++ []) [] [] []).
  - reflexivity.
  - repeat split; [constructor|left; reflexivity|intros r; destruct r; discriminate].
  - apply (sd_text 0 false OnlyModified (txt "x") [] []); [repeat (constructor; [discriminate|]); constructor|constructor].
  - constructor.
Qed.

(** ** C29 *)
Theorem C29_split : forall a b r, no_byte 124 a -> attribute_revision (a ++ 124 :: b) r = if Nat.eqb r 0 then a else b.
Proof. exact attr_rev_bar. Qed.
Print Assumptions C29_split.
Theorem C29_plain : forall a r, no_byte 124 a -> attribute_revision a r = a.
Proof. exact attr_rev_plain. Qed.
Print Assumptions C29_plain.
Example C29_example : no_byte 124 (txt "a.cpp") /\ attribute_revision (txt "a.cpp|b.cpp") 0 = txt "a.cpp" /\
  attribute_revision (txt "a.cpp|b.cpp") 1 = txt "b.cpp".
Proof. repeat split; repeat (constructor; try discriminate). Qed.

(** ** C30: attributes read from XML, any history (the result again satisfies the hypotheses) *)
Theorem C30_attributes : forall l u ps, ua_attributes u = flatten ps -> NoDup (map fst ps) ->
  exists u' ps', update_attributes u l = Ok u' /\ ua_attributes u' = flatten ps' /\ NoDup (map fst ps') /\
    (forall k get, In (k, get) fields -> get u' = or_else (last_value k l) (get u)) /\
    map fst ps' = map fst ps ++ first_seen (map fst ps) (map fst (others l)) /\
    (forall k, last_value k ps' = or_else (last_value k (others l)) (last_value k ps)).
Proof. exact update_attributes_ok. Qed.
Print Assumptions C30_attributes.
Example C30_example :
  let u := UAttrs None None None None None None None (flatten [(txt "x", txt "1")]) in
  NoDup (map fst [(txt "x", txt "1")]) /\
  update_attributes u [(txt "language", txt "C"); (txt "y", txt "2"); (txt "x", txt "3"); (txt "tabs", txt "8"); (txt "language", txt "C++")] =
  Ok (UAttrs None None (Some (txt "C++")) None None None None (map txt ["x"; "3"; "y"; "2"]%string)).
Proof. split; [repeat constructor; intros []|reflexivity]. Qed.
