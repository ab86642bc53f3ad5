(** Properties C21, C22, C34: the srcML of a unit, by parsing and by element. *)
From Verif Require Import Base Text_Model Text_Spec Api_Model Writer_Model Writer_Spec Writer_Proofs2 Writer_Proofs9 Writer_Tags  Writer_Proofs10.
Local Open Scope N_scope.

(** ** C21: for every archive, unit and forest of elements the parser delivers *)
Theorem C21_parsed_unit : forall extract a u lang encoding hash ts,
  usable a (parse_start a (wu u) lang encoding) -> clean_opt hash -> Forall good_tree ts ->
  exists v, parse_unit extract a u lang encoding hash (flat_map tokens_of ts) = Ok (ST_OK, v) /\
    same_settings (parse_end a (wu u) lang encoding hash) (wu v) /\
    let c := forest_content (prefix_of a (parse_start a (wu u) lang encoding)) ts in
    uo_srcml (wu v) = unit_xml (unit_tag a (wu v)) (unit_element a (wu v)) c /\
    inner (wu v) = Ok (text_of c) /\
    (url_safe a (wu v) -> outer (wu v) = Ok (unit_xml (outer_tag a (wu v)) (unit_element a (wu v)) c)).
Proof. exact parsed. Qed.
Print Assumptions C21_parsed_unit.
Theorem C21_element_unit : forall extract a u cs, usable a (wu u) -> all_proper ([], []) cs -> Forall clean_call cs ->
  exists v, write_by_element extract a u cs = Ok (ST_OK, v) /\ same_settings (wu u) (wu v) /\
    (exists u1 u2, write_start_unit a u = Ok (ST_OK, u1) /\ write_calls u1 cs = Ok (fst (spec_calls ([], []) cs), u2)) /\
    let c := content_of (contents (snd (spec_calls ([], []) cs))) in
    uo_srcml (wu v) = unit_xml (unit_tag a (wu v)) (unit_element a (wu v)) c /\
    inner (wu v) = Ok (text_of c) /\
    (url_safe a (wu v) -> outer (wu v) = Ok (unit_xml (outer_tag a (wu v)) (unit_element a (wu v)) c)).
Proof. exact by_element. Qed.
Print Assumptions C21_element_unit.
(** what the outer form drops: the first attribute, which declares the srcML namespace *)
Theorem C21_first_attribute : forall a u, usable a u ->
  hd_error (tag_attrs (unit_out a u) (start_args a u (uo_revision u))) = Some (declaration (prefix_of a u 0) SRC_URI).
Proof. exact unit_first_declares. Qed.
Print Assumptions C21_first_attribute.
(** outside [url_safe]: a file name with " url=" in it gives an outer form that is not XML *)
Theorem C21_url_in_filename_refuted : forall extract, exists v,
  write_by_element extract archive_create (plain_unit (txt "x url=y z")) [] = Ok (ST_OK, v) /\
  outer (wu v) = Ok (txt "<unit revision=""1.0.0"" language=""C"" filename=""x/>").
Proof. exact url_in_filename. Qed.
Print Assumptions C21_url_in_filename_refuted.
(** outside [usable]: after srcml_archive_set_options no namespace is declared and the search for it runs off a null pointer *)
Theorem C21_no_declaration_refuted : forall extract, write_by_element extract (run [SetOptions 0] archive_create) fresh [] = UB.
Proof. exact no_declaration. Qed.
Print Assumptions C21_no_declaration_refuted.
Example C21_hypotheses : usable archive_create (wu (named_unit (txt "a.c"))) /\ url_safe archive_create (wu (named_unit (txt "a.c"))).
Proof. split; [apply usable_new; right; left; reflexivity|exact safe_new]. Qed.
(** the start tag of a unit's own document says what the unit is set to; its language is that of the archive if it has none *)
Theorem C21_tag_settings : forall a u n v, n <> [] ->
  In (n, v) (given (txt "revision") (uo_revision u) ++
             given (txt "language") (match u_language (uo_settings u) with Some l => Some l | None => a_language a end) ++ given (txt "url") (uo_url u) ++
             given (txt "filename") (u_filename (uo_settings u)) ++ given (txt "version") (u_version (uo_settings u)) ++
             given (txt "timestamp") (u_timestamp (uo_settings u)) ++ given (txt "hash") (u_hash (uo_settings u))) ->
  In (n, v) (tag_attrs (unit_out a u) (start_args a u (uo_revision u))).
Proof. exact tag_says. Qed.
Print Assumptions C21_tag_settings.
Example C21_example : exists v, parse_unit (fun _ => []) archive_create (plain_unit (txt "a.c")) 2 None None
    (flat_map tokens_of [TreeElem 0 (txt "expr") [] [] [TreeText (txt "a<b"); TreeEmpty 1 (txt "x") [(txt "n", txt "1")]]]) = Ok (ST_OK, v) /\
  uo_srcml (wu v) = txt "<unit xmlns=""http://www.srcML.org/srcML/src"" xmlns:cpp=""http://www.srcML.org/srcML/cpp"" revision=""1.0.0"" language=""C"" filename=""a.c""><expr>a&lt;b<cpp:x n=""1""/></expr></unit>" /\
  inner (wu v) = Ok (txt "<expr>a&lt;b<cpp:x n=""1""/></expr>") /\
  outer (wu v) = Ok (txt "<unit xmlns:cpp=""http://www.srcML.org/srcML/cpp"" revision=""1.0.0"" language=""C"" filename=""a.c""><expr>a&lt;b<cpp:x n=""1""/></expr></unit>").
Proof. eexists. split; [vm_compute; reflexivity|]. split; [vm_compute; reflexivity|]. split; vm_compute; reflexivity. Qed.

(** ** C22: any history of proper calls gives a balanced document; [spec_calls] builds its tree.
    Missing: the improper calls ([proper]), for which it is false (below). *)
Theorem C22_by_element_partial : forall extract a u cs, usable a (wu u) -> all_proper ([], []) cs -> Forall clean_call cs ->
  exists v, write_by_element extract a u cs = Ok (ST_OK, v) /\ same_settings (wu u) (wu v) /\
    (exists u1 u2, write_start_unit a u = Ok (ST_OK, u1) /\ write_calls u1 cs = Ok (fst (spec_calls ([], []) cs), u2)) /\
    let c := content_of (contents (snd (spec_calls ([], []) cs))) in
    uo_srcml (wu v) = unit_xml (unit_tag a (wu v)) (unit_element a (wu v)) c /\
    inner (wu v) = Ok (text_of c) /\
    (url_safe a (wu v) -> outer (wu v) = Ok (unit_xml (outer_tag a (wu v)) (unit_element a (wu v)) c)).
Proof. exact by_element. Qed.
Print Assumptions C22_by_element_partial.
(** outside srcml_write_start_unit / srcml_write_end_unit every call is refused and changes nothing *)
Theorem C22_refused_outside : forall u c, wu_trans u = None -> write_call u c = Ok (ST_INVALID_INPUT, u).
Proof. exact no_unit_refused. Qed.
Print Assumptions C22_refused_outside.
Theorem C22_end_refused_outside : forall extract a u, wu_trans u = None -> write_end_unit extract a u = Ok (ST_INVALID_INPUT, u).
Proof. exact end_refused. Qed.
Print Assumptions C22_end_refused_outside.
(** text and attribute values are read back as they were given, and as nothing else *)
Theorem C22_text_read_back : forall s v, char_data (escaped s) v <-> v = s.
Proof. intros s v. split; [intros H; exact (char_data_unique _ _ _ H (escaped_data s))|intros ->; exact (escaped_data s)]. Qed.
Print Assumptions C22_text_read_back.
Theorem C22_value_read_back : forall s v, attr_value (esc_attr s) v <-> v = s.
Proof. intros s v. split; [intros H; exact (attr_value_unique _ _ _ H (esc_attr_value s))|intros ->; exact (esc_attr_value s)]. Qed.
Print Assumptions C22_value_read_back.
(** ending an element is refused when none is open *)
Theorem C22_extra_end_refused : (forall u t w, wu_trans u = Some t -> t_outputting t = true -> so_w (t_out t) = Some w -> (w_nodes w = Some [] \/ w_nodes w = None) ->
    exists u', write_call u EEnd = Ok (ST_INVALID_INPUT, u')) /\
  exists u1 u2, write_start_unit archive_create (plain_unit (txt "a.c")) = Ok (ST_OK, u1) /\ write_calls u1 [EEnd; EEnd; EEnd] = Ok ([ST_OK; ST_INVALID_INPUT; ST_INVALID_INPUT], u2).
Proof. exact (conj Writer_Tags.end_refused end_twice). Qed.
Print Assumptions C22_extra_end_refused.
Theorem C22_over_close_refuted : forall extract, write_by_element extract archive_create fresh [EStart None (txt "b") None; EEnd; EEnd] = UB.
Proof. exact over_closed. Qed.
Print Assumptions C22_over_close_refuted.
Theorem C22_unit_attribute_refuted : forall extract, exists v,
  write_by_element extract archive_create fresh [EAttribute None (txt "at") None (txt "v"); EStart None (txt "b") None] = Ok (ST_OK, v) /\
  uo_srcml (wu v) = txt "<unit xmlns=""http://www.srcML.org/srcML/src"" revision=""1.0.0"">at=""v""><b/></unit>".
Proof. exact unit_attribute. Qed.
Print Assumptions C22_unit_attribute_refuted.
(** a refused start still counts: the unit cannot be ended *)
Theorem C22_empty_name_refuted : forall extract, exists v,
  write_by_element extract archive_create fresh [EStart None [] None] = Ok (ST_INVALID_INPUT, v) /\ uo_read_body (wu v) = false.
Proof. exact empty_name. Qed.
Print Assumptions C22_empty_name_refuted.
Theorem C22_constant_text_refuted : forall extract, write_by_element extract archive_create fresh [EString false (txt """")] = UB.
Proof. exact constant_quote. Qed.
Print Assumptions C22_constant_text_refuted.
(** a refused attribute leaves a namespace declaration to the next element *)
Theorem C22_refused_attribute_refuted : forall extract, exists v,
  write_by_element extract archive_create fresh
    [EString true (txt "t"); EAttribute (Some (txt "p")) (txt "n") (Some (txt "u")) (txt "v"); EStart None (txt "b") None] = Ok (ST_OK, v) /\
  inner (wu v) = Ok (txt "t<b xmlns:p=""u""/>").
Proof. exact pending_declaration. Qed.
Print Assumptions C22_refused_attribute_refuted.
Example C22_example :
  let cs := [EStart None (txt "a") None; EAttribute (Some (txt "p")) (txt "k") (Some (txt "urn:p")) (txt "1<2"); EString true (txt "x&""y");
             EStart None (txt "unit") None; EStart (Some (txt "q")) (txt "b") (Some (txt "urn:q")); EEnd] in
  all_proper ([], []) cs /\ Forall clean_call cs /\ usable archive_create (wu fresh) /\
  fst (spec_calls ([], []) cs) = [ST_OK; ST_OK; ST_OK; ST_INVALID_INPUT; ST_OK; ST_OK] /\
  xml_all (contents (snd (spec_calls ([], []) cs))) = txt "<a p:k=""1&lt;2"" xmlns:p=""urn:p"">x&amp;""y<q:b xmlns:q=""urn:q""/></a>".
Proof.
  split; [cbn [all_proper proper spec_call snd fst beqb]; repeat split; try discriminate; try (left; first [reflexivity|discriminate])|].
  split; [repeat constructor; unfold clean_call, clean_opt, clean; cbn; repeat split; repeat constructor; discriminate|].
  split; [apply usable_new; left; reflexivity|]. split; vm_compute; reflexivity.
Qed.

(** ** C34: every namespace the content of a parsed unit uses is declared on its start tag with the prefix used *)
Theorem C34_unit_namespaces_declared : forall extract a u lang encoding hash ts,
  usable a (parse_start a (wu u) lang encoding) -> clean_opt hash -> Forall good_tree ts ->
  exists v, parse_unit extract a u lang encoding hash (flat_map tokens_of ts) = Ok (ST_OK, v) /\
    forall i uri, any_uses i ts -> standard_uri i = Some uri ->
      In (declaration (prefix_of a (parse_start a (wu u) lang encoding) i) uri)
         (tag_attrs (unit_out a (wu v)) (start_args a (wu v) (uo_revision (wu v)))).
Proof. exact parsed_declared. Qed.
Print Assumptions C34_unit_namespaces_declared.
