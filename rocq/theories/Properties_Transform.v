(** Properties C50-C53: transformations. [apply_transforms g l u presult] (Transform_Model.v): srcml_unit_apply_transforms on the unit [u] with
    the transformations [l], libxml2 and libxslt being [g]. Specification: Transform_Spec.v, Transform_Results.v, the first part of Transform_Calls.v. *)
From Verif Require Import Base Text_Model Text_Spec Api_Model Transform_Model Transform_Spec Transform_Trees Transform_Marks Transform_Results Transform_Whole Transform_Rest Transform_Calls Transform_Root Transform_Examples.
Local Open Scope N_scope.

(** ** C50: each transformation is applied to every result of the one before, in order *)
(** Missing: results that are inside one another or not elements, before another transformation; results for which a transformation has
    no result; stylesheets for more than one result (all refuted below). *)
Theorem C50_chain_partial : forall g l u t ps, proper g -> l <> [] -> xml_parse g (uo_srcml u) = Some t -> usable g l [t] -> even_fields u ps ->
  exists us r, chain g l [t] us /\ us <> [] /\ apply_transforms g l u true = Ok (Answer ST_OK (Some r)) /\ t_type r = RESULT_UNITS /\
    map uo_srcml (t_units r) = map (shown g) us.
Proof. exact chained. Qed.
Print Assumptions C50_chain_partial.
(** a boolean, a number or a string ends the transformations, and is that of the first result *)
Theorem C50_value : forall g l x ps n u t v r, proper g -> xml_parse g (uo_srcml u) = Some t -> extendable g l [t] ->
  (forall us, chain g l [t] us -> exists q rest, us = q :: rest /\ xpath_eval g (x_xpath x) [q] = Some v) -> value_result v = Some r ->
  apply_transforms g (l ++ Item (TXPath x) ps :: n) u true = Ok (Answer ST_OK (Some r)).
Proof. exact value_ok. Qed.
Print Assumptions C50_value.
(** so does a first result without a match, valid document or output: there is no result *)
Theorem C50_nothing : forall g l it n u t, proper g -> xml_parse g (uo_srcml u) = Some t -> extendable g l [t] ->
  (forall us, chain g l [t] us -> exists q rest, us = q :: rest /\
    match i_trans it with
    | TXPath x => x_element x = [] /\ x_attr_name x = [] /\ xpath_eval g (x_xpath x) [q] = Some (XNodes (Some []))
    | TRng s => rng_valid g s [q] = false
    | TXslt s => forall k, xslt_run g s (i_params it) k [q] = Some []
    end) ->
  apply_transforms g (l ++ it :: n) u true = Ok (Answer ST_OK (Some (Result RESULT_NONE [] false None None))).
Proof. exact nothing_ok. Qed.
Print Assumptions C50_nothing.
(** the text a stylesheet gives, for one result *)
Theorem C50_text : forall g l s ps u t text, proper g -> xml_parse g (uo_srcml u) = Some t -> extendable g l [t] ->
  (forall us, chain g l [t] us -> exists q, us = [q] /\ gives_text g s ps q text) ->
  apply_transforms g (l ++ [Item (TXslt s) ps]) u true = Ok (Answer ST_OK (Some (Result RESULT_STRING [] false None (Some text)))).
Proof. exact string_ok. Qed.
Print Assumptions C50_text.
(** without a place for the result: units are nothing, text is an error *)
Theorem C50_unwanted_partial : forall g l u t, proper g -> l <> [] -> xml_parse g (uo_srcml u) = Some t -> usable g l [t] -> apply_transforms g l u false = Ok (Answer ST_OK None).
Proof. exact unwanted. Qed.
Print Assumptions C50_unwanted_partial.
Theorem C50_unwanted_text : forall g s ps u t text, proper g -> xml_parse g (uo_srcml u) = Some t -> gives_text g s ps t text ->
  apply_transforms g [Item (TXslt s) ps] u false = Ok (Answer ST_ERROR None).
Proof. exact string_unwanted. Qed.
Print Assumptions C50_unwanted_text.
(** the first class has no block, the second one has: no results *)
Theorem C50_first_refuted : chain lib [one (txt "class"); one (txt "block")] [doc] [el 17 (txt "block") []] /\
  apply_transforms lib [one (txt "class"); one (txt "block")] a_unit true = Ok (Answer ST_OK (Some (Result RESULT_NONE [] false None None))).
Proof. exact first_empty. Qed.
Print Assumptions C50_first_refuted.
(** the first has a type, the second has none: no results *)
Theorem C50_second_refuted : chain lib [one (txt "class"); one (txt "type")] [doc] [at_ 11 (txt "type") (txt "t")] /\
  apply_transforms lib [one (txt "class"); one (txt "type")] a_unit true = Ok (Answer ST_OK (Some (Result RESULT_NONE [] false None None))).
Proof. exact second_empty. Qed.
Print Assumptions C50_second_refuted.
(** of several numbers one is given *)
Theorem C50_number_refuted : chain lib [one (txt "function")] [doc] [outer_f; inner_f] /\ xpath_eval lib (txt "count(//name)") [outer_f] = Some (XNumber 2) /\
  xpath_eval lib (txt "count(//name)") [inner_f] = Some (XNumber 1) /\
  apply_transforms lib [one (txt "function"); one (txt "count(//name)")] a_unit true = Ok (Answer ST_OK (Some (Result RESULT_NUMBER [] false (Some 2) None))).
Proof. exact one_number. Qed.
Print Assumptions C50_number_refuted.
(** a function in a function is taken out of it, by a schema that both are valid for *)
Theorem C50_nested_refuted : chain lib [one (txt "function"); Item (TRng 0) []] [doc] [outer_f; inner_f] /\
  shown lib outer_f = txt "<function><name>f</name><block><function><name>g</name></function></block></function>" /\
  units_are (apply_transforms lib [one (txt "function"); Item (TRng 0) []] a_unit true)
    [txt "<function><name>f</name><block></block></function>"; txt "<function><name>g</name></function>"].
Proof. exact nested. Qed.
Print Assumptions C50_nested_refuted.
(** a stylesheet for two results: the first document is freed, and its nodes are used *)
Theorem C50_freed_refuted : chain lib [one (txt "class"); Item (TXslt 0) []] [doc] (sheet_out ++ sheet_out) /\
  apply_transforms lib [one (txt "class"); Item (TXslt 0) []] a_unit true = UB.
Proof. exact freed. Qed.
Print Assumptions C50_freed_refuted.
(** without a place for the result, a null pointer is used if there is none *)
Theorem C50_null_refuted : apply_transforms lib [one (txt "enum")] a_unit false = UB /\ apply_transforms lib [one (txt "class")] a_unit false = Ok (Answer ST_OK None).
Proof. exact no_caller. Qed.
Print Assumptions C50_null_refuted.
(** of the elements a stylesheet gives, only the first if it is not followed by another *)
Theorem C50_siblings_refuted : xslt_run lib 1 [] 20 [doc] = Some [el 20 (txt "one") []; te 21 (txt "t"); el 22 (txt "two") []] /\
  units_are (apply_transforms lib [Item (TXslt 1) []] a_unit true) [txt "<one></one>"] /\
  xslt_run lib 2 [] 20 [doc] = Some [el 20 (txt "one") []; el 21 (txt "two") []] /\
  units_are (apply_transforms lib [Item (TXslt 2) []] a_unit true) [txt "<one></one>"; txt "<two></two>"].
Proof. exact siblings. Qed.
Print Assumptions C50_siblings_refuted.
Example C50_text_example : gives_text lib 3 [] doc (txt "out") /\ extendable lib [one (txt "class")] [doc].
Proof.
  split; [|exact extendable_here]. intros k _. exists (te k (txt "out")), []. repeat split.
Qed.
Example C50_example : proper lib /\ xml_parse lib (uo_srcml a_unit) = Some doc /\ usable lib [one (txt "class"); marks] [doc] /\ even_fields a_unit [(txt "pos:tabs", txt "8")] /\
  units_are (apply_transforms lib [one (txt "class"); marks] a_unit true)
    [txt "<class type=""t""><name p:m=""v"">a&lt;b</name></class>"; txt "<class><name p:m=""v"">c</name><block></block></class>"].
Proof. exact (conj lib_proper (conj eq_refl (conj usable_here (conj even_here chain_here)))). Qed.

(** ** C51: marking puts the results into elements, or an attribute on them, and changes nothing else *)
Theorem C51_element : forall g x p uri e u t l ps, proper g -> xml_parse g (uo_srcml u) = Some t -> even_fields u ps ->
  xpath_eval g x [t] = Some (XNodes (Some l)) -> e <> [] -> ~ In (root_id t) l -> (forall r, within r t -> In (root_id r) l -> is_kind Attr r = false) ->
  exists t' r v, apply_transforms g (truns [AppendElement x p uri e] []) u true = Ok (Answer ST_OK (Some r)) /\ t_type r = RESULT_UNITS /\ t_units r = [v] /\ uo_srcml v = shown g t' /\
    wrapped (ids t) (Label Elem e (Some (Some p, uri)) []) [] l t t' /\ text_content t' = text_content t.
Proof. exact (fun g x p uri e u t l ps A B C D E F G => element_marked g _ x p uri e [] [] u t l ps A B C D E F G eq_refl (or_introl (conj eq_refl eq_refl))). Qed.
Print Assumptions C51_element.
Theorem C51_attribute : forall g x p uri n val u t l ps, proper g -> xml_parse g (uo_srcml u) = Some t -> even_fields u ps ->
  xpath_eval g x [t] = Some (XNodes (Some l)) -> n <> [] -> (forall r a, within r t -> In (root_id r) l -> In a (children r) -> is_kind Attr a = true -> n_name (root_label a) <> n) ->
  exists t' r v, apply_transforms g (truns [AppendAttribute x p uri n val] []) u true = Ok (Answer ST_OK (Some r)) /\ t_type r = RESULT_UNITS /\ t_units r = [v] /\ uo_srcml v = shown g t' /\
    attributed (ids t) (Label Attr n (Some (Some p, uri)) val) l t t' /\ text_content t' = text_content t.
Proof. exact attribute_marked. Qed.
Print Assumptions C51_attribute.
(** an element and then an attribute for the same expression: an element with the attribute, that is in no namespace whatever was asked for *)
Theorem C51_both : forall g x p uri e ap au n val u t l ps, proper g -> xml_parse g (uo_srcml u) = Some t -> even_fields u ps ->
  xpath_eval g x [t] = Some (XNodes (Some l)) -> e <> [] -> n <> [] -> ~ In (root_id t) l -> (forall r, within r t -> In (root_id r) l -> is_kind Attr r = false) ->
  exists t' r v, apply_transforms g (truns [AppendElement x p uri e; AppendAttribute x ap au n val] []) u true = Ok (Answer ST_OK (Some r)) /\ t_type r = RESULT_UNITS /\ t_units r = [v] /\
    uo_srcml v = shown g t' /\ wrapped (ids t) (Label Elem e (Some (Some p, uri)) []) [Label Attr n None val] l t t' /\ text_content t' = text_content t.
Proof.
  exact (fun g x p uri e ap au n val u t l ps A B C D E N F G => element_marked g _ x p uri e _ _ u t l ps A B C D E F G eq_refl
    (or_intror (ex_intro _ ap (ex_intro _ au (ex_intro _ n (ex_intro _ val (conj eq_refl (conj N eq_refl)))))))).
Qed.
Print Assumptions C51_both.
(** the root as the only result: it keeps its place and its attributes, its content goes into the new element, the text is the same. Missing: the same through the
    list of transformations, with other ones after it. *)
Theorem C51_root_partial : forall g x new t i l attributes content, element_parts t i l attributes content ->
  xpath_eval g (x_xpath x) [t] = Some (XNodes (Some [i])) -> x_element x <> [] ->
  let e := Label Elem (x_element x) (x_element_ns x) [] in
  let extra := match x_attr_name x with [] => [] | n => [Node (S new) (Label Attr n (x_attr_ns x) (x_attr_value x)) []] end in
  let t' := Node i l (attributes ++ [Node new e (extra ++ content)]) in
  exists r, apply_xpath g x new [t] = Ok ([t'], r) /\ r_type r = RESULT_UNITS /\ r_nodes r = Some [i] /\ text_content t' = text_content t.
Proof. exact root_wrapped. Qed.
Print Assumptions C51_root_partial.
Example C51_root_example : exists l attributes content, element_parts doc 0 l attributes content /\ length attributes = 1%nat /\ length content = 4%nat /\
  xpath_eval lib (x_xpath (xpath_element (txt "unit") (txt "p") (txt "u") (txt "e"))) [doc] = Some (XNodes (Some [0%nat])) /\
  x_element (xpath_element (txt "unit") (txt "p") (txt "u") (txt "e")) <> [].
Proof.
  exists (root_label doc), (firstn 1 (children doc)), (skipn 1 (children doc)). split; [|repeat split; try discriminate; vm_compute; reflexivity].
  split; [reflexivity|]. split; [reflexivity|]. split; repeat constructor; discriminate.
Qed.
Theorem C51_namespace_refuted : exists s,
  units_are (apply_transforms lib (truns [AppendElement (txt "block") (txt "p") (txt "u") (txt "e"); AppendAttribute (txt "block") (txt "q") (txt "w") (txt "m") (txt "v")] []) a_unit true) [s] /\
  exists a b, s = a ++ txt "<p:e m=""v""><block></block></p:e>" ++ b.
Proof. exact bare_attribute. Qed.
Print Assumptions C51_namespace_refuted.
(** an attribute that is there already: twice, which is not XML *)
Theorem C51_twice_refuted : exists s,
  units_are (apply_transforms lib (truns [AppendAttribute (txt "block") (txt "p") (txt "u") (txt "m") (txt "a"); AppendAttribute (txt "block") (txt "p") (txt "u") (txt "m") (txt "b")] []) a_unit true) [s] /\
  exists a b, s = a ++ txt "<block p:m=""a"" p:m=""b"">" ++ b.
Proof. exact twice. Qed.
Print Assumptions C51_twice_refuted.
(** attributes, marked with an element: they are deleted *)
Theorem C51_lost_refuted : xpath_eval lib (txt "type") [doc] = Some (XNodes (Some [11%nat])) /\ shown lib class1 = txt "<class type=""t""><name>a&lt;b</name></class>" /\
  exists s, units_are (apply_transforms lib (truns [AppendElement (txt "type") (txt "p") (txt "u") (txt "e")] []) a_unit true) [s] /\
  exists a b, s = a ++ txt "<!--x--><class><name>a&lt;b</name></class>" ++ b.
Proof. exact attribute_lost. Qed.
Print Assumptions C51_lost_refuted.
Example C51_example : proper lib /\ xml_parse lib (uo_srcml a_unit) = Some doc /\ even_fields a_unit [(txt "pos:tabs", txt "8")] /\
  xpath_eval lib (txt "class") [doc] = Some (XNodes (Some [10; 14]%nat)) /\ ~ In (root_id doc) [10; 14]%nat /\
  (forall r, within r doc -> In (root_id r) [10; 14]%nat -> is_kind Attr r = false) /\
  (forall r a, within r doc -> In (root_id r) [10; 14]%nat -> In a (children r) -> is_kind Attr a = true -> n_name (root_label a) <> txt "m").
Proof.
  split; [exact lib_proper|]. split; [reflexivity|]. split; [exact even_here|]. split; [vm_compute; reflexivity|]. split; [cbn; intuition discriminate|]. split.
  - intros r W I. unfold within in W. cbn in W, I. repeat (destruct W as [<-|W]; [cbn in I |- *; try reflexivity; intuition discriminate|]). destruct W.
  - intros r a W I C K. unfold within in W; cbn in W; repeat (destruct W as [<-|W]; [cbn in I, C; repeat (destruct C as [<-|C]; [try discriminate K; try (intuition discriminate); intros F; vm_compute in F; discriminate F|]); try destruct C|]); destruct W.
Qed.

(** ** C52: the units of the results *)
(** The srcML, the namespaces and the rest of the unit come from the result and the unit transformed; a part of a unit is numbered and has
    no hash; a whole unit has the attributes of its start tag. Missing: as for C50. *)
Theorem C52_units_partial : forall g l u t ps, proper g -> l <> [] -> xml_parse g (uo_srcml u) = Some t -> usable g l [t] -> even_fields u ps ->
  exists us r, chain g l [t] us /\ us <> [] /\ apply_transforms g l u true = Ok (Answer ST_OK (Some r)) /\ t_type r = RESULT_UNITS /\
    map uo_srcml (t_units r) = map (shown g) us /\
    exists l0 it, l = l0 ++ [it] /\ forall k q v, nth_error us k = Some q -> nth_error (t_units r) k = Some v -> made g u q v /\
      (is_plain it -> (forall p, In p us -> ~ named_unit p) -> part_of u k v) /\
      (~ is_plain it \/ (forall p, In p us -> named_unit p) -> unit_of u ps q v).
Proof. exact transformed. Qed.
Print Assumptions C52_units_partial.
(** text is not escaped: the srcML of the unit is not XML *)
Theorem C52_text_refuted : units_are (apply_transforms lib [one (txt "text")] a_unit true) [txt "f"; txt "g"; txt "a<b"; txt "c"].
Proof. exact text_results. Qed.
Print Assumptions C52_text_refuted.
(** the prefix of an attribute p:m is lost *)
Theorem C52_prefix_refuted : units_are (apply_transforms lib (truns [AppendAttribute (txt "class") (txt "p") (txt "u") (txt "m") (txt "v"); AppendXPath (txt "m")] []) a_unit true)
    [txt "m=""v"""; txt "m=""v"""].
Proof. exact attribute_results. Qed.
Print Assumptions C52_prefix_refuted.
Example C52_example : exists r v, apply_transforms lib [one (txt "class")] a_unit true = Ok (Answer ST_OK (Some r)) /\ nth_error (t_units r) 1 = Some v /\
  uo_attributes v = [txt "pos:tabs"; txt "8"; txt "item"; txt "2"] /\ u_hash (uo_settings v) = None /\ u_filename (uo_settings v) = Some (txt "f.c") /\
  is_plain (one (txt "class")) /\ ~ named_unit class2.
Proof.
  eexists. eexists. split; [vm_compute; reflexivity|]. split; [reflexivity|]. split; [reflexivity|]. split; [reflexivity|]. split; [reflexivity|]. split.
  - exists (xpath_plain (txt "class")). auto.
  - intros F. vm_compute in F. discriminate F.
Qed.

(** ** C53: the list of transformations *)
(** After the list is cleared, each call appends a transformation, in order; parameters go to the last one, and so does an attribute for an
    XPath that has none *)
Theorem C53_list : forall before l qs, Forall well_formed qs -> separate qs -> truns (before ++ Clear :: flat_map calls qs) l = map means qs.
Proof. exact list_ok. Qed.
Print Assumptions C53_list.
(** as for a new archive *)
Theorem C53_new : forall qs, Forall well_formed qs -> separate qs -> truns (flat_map calls qs) [] = map means qs.
Proof. exact fresh_ok. Qed.
Print Assumptions C53_new.
(** a parameter is refused, without effect, if there is no transformation, and nothing else is *)
Theorem C53_status : forall cs c, (fst (tstep (truns cs []) c) = ST_OK \/ fst (tstep (truns cs []) c) = ST_NO_TRANSFORMATION) /\
  (fst (tstep (truns cs []) c) = ST_NO_TRANSFORMATION <-> is_param c /\ ~ some_appended cs) /\
  (fst (tstep (truns cs []) c) = ST_NO_TRANSFORMATION -> snd (tstep (truns cs []) c) = truns cs []).
Proof. exact status_ok. Qed.
Print Assumptions C53_status.
(** a string parameter with a quote is not a string any more *)
Theorem C53_quote_refuted : truns [AppendXslt 0; AppendStringParam (txt "n") (txt "a""b")] [] = [Item (TXslt 0) [txt "n"; txt """a""b"""]].
Proof. exact eq_refl. Qed.
Print Assumptions C53_quote_refuted.
Example C53_example : let qs := [Group (AppendElement (txt "x") (txt "p") (txt "u") (txt "e")) [AppendParam (txt "n") (txt "v"); AppendAttribute (txt "x") (txt "q") (txt "w") (txt "m") (txt "v")];
    Group (AppendAttribute (txt "x") (txt "q") (txt "w") (txt "m") (txt "z")) []; Group (AppendXslt 3) [AppendStringParam (txt "n") (txt "v")]] in
  Forall well_formed qs /\ separate qs /\ length (map means qs) = 3%nat.
Proof.
  cbv zeta. split; [|split; [|reflexivity]].
  - repeat apply Forall_cons; [| | |apply Forall_nil]; (split; [|try exact Logic.I; cbn; intros (F & _); discriminate F]); cbn [g_more g_start open_xpath].
    + apply Param; [exact Logic.I|]. apply Attribute; [reflexivity|intros (F & _); discriminate F|apply Done].
    + apply Done.
    + apply Param; [exact Logic.I|apply Done].
  - apply MoreGroups; [intros _; discriminate|]. apply MoreGroups; [exact Logic.I|apply OneGroup].
Qed.
