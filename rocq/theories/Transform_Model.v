(** Model of transformations: src/libsrcml/srcml_transform.cpp, xpathTransformation.cpp, xsltTransformation.cpp,
    relaxngTransformation.cpp, Transformation.hpp.
    External: libxml2 and libxslt as the functions of [engines]; trees as libxml2 keeps them, a node being its number; a transformation
    changes a document in place, and xmlDocSetRootElement takes a node out of where it is.
    Simplified: attributes are children of kind [Attr], before the others; namespace nodes are not results; numbers are not computed with;
    parent pointers follow from the trees. *)
From Verif Require Import Base Text_Model Api_Model.
From Coq Require Import DecimalString.
Local Open Scope N_scope.

(** ** Documents *)
Inductive kind := Elem | Text | Comment | Attr.
(** [n_ns]: prefix and URI *)
Record label := Label { n_kind : kind; n_name : bytes; n_ns : option (option bytes * bytes); n_content : bytes }.
Inductive tree := Node (i : nat) (l : label) (ch : list tree).
Definition root_id (t : tree) : nat := match t with Node i _ _ => i end.
Definition root_label (t : tree) : label := match t with Node _ l _ => l end.
Definition children (t : tree) : list tree := match t with Node _ _ ch => ch end.
Definition is_kind (k : kind) (t : tree) : bool :=
  match k, n_kind (root_label t) with Elem, Elem | Text, Text | Comment, Comment | Attr, Attr => true | _, _ => false end.
Fixpoint ids (t : tree) : list nat := match t with Node i _ ch => i :: flat_map ids ch end.
(** the nodes with a number: one, as long as numbers are not used twice *)
Fixpoint seek (i : nat) (t : tree) : list tree := match t with Node j _ ch => if Nat.eqb i j then [t] else flat_map (seek i) ch end.
(** without the node *)
Fixpoint prune (i : nat) (t : tree) : list tree := match t with Node j l ch => if Nat.eqb i j then [] else [Node j l (flat_map (prune i) ch)] end.
(** with the node changed *)
Fixpoint change (i : nat) (f : tree -> list tree) (t : tree) : list tree :=
  match t with Node j l ch => if Nat.eqb i j then f t else [Node j l (flat_map (change i f) ch)] end.

(** ** libxml2 and libxslt *)
Inductive xvalue := XNodes (l : option (list nat)) | XBoolean (b : bool) | XNumber (n : N) | XString (s : bytes).
Record engines := Engines {
  xpath_eval : bytes -> list tree -> option xvalue;       (* xmlXPathCompiledEval *)
  xslt_run : nat -> list bytes -> nat -> list tree -> option (list tree); (* xsltApplyStylesheetUser: stylesheet, parameters, first new number *)
  rng_valid : nat -> list tree -> bool;                   (* xmlRelaxNGValidateDoc *)
  raw_text : list tree -> option bytes;                   (* xmlNodeListGetRawString *)
  xml_parse : bytes -> option tree;                       (* xmlReadMemory *)
  xml_dump : tree -> bytes }.                             (* xmlNodeDumpOutput *)

(** ** Transformations (xpathTransformation.cpp:61-88; Transformation.hpp:56) *)
Record xpath_t := XPathT { x_xpath : bytes; x_element : bytes; x_element_ns : option (option bytes * bytes);
  x_attr_prefix : bytes; x_attr_uri : bytes; x_attr_name : bytes; x_attr_value : bytes; x_attr_ns : option (option bytes * bytes) }.
Inductive transformation := TXPath (x : xpath_t) | TXslt (sheet : nat) | TRng (schema : nat).
Record item := Item { i_trans : transformation; i_params : list bytes }.
(** 66-123 srcml_append_transform_xpath, _element: null strings are empty *)
Definition xpath_plain (xpath : bytes) : xpath_t := XPathT xpath [] None [] [] [] [] None.
Definition xpath_element (xpath prefix uri element : bytes) : xpath_t := XPathT xpath element (Some (Some prefix, uri)) [] [] [] [] None.
Definition xpath_attribute (xpath prefix uri name value : bytes) : xpath_t := XPathT xpath [] None prefix uri name value (Some (Some prefix, uri)).
Definition empty (s : bytes) : bool := match s with [] => true | _ => false end.
(** the calls on a list of transformations *)
Inductive tcall := AppendXPath (xpath : bytes) | AppendElement (xpath prefix uri element : bytes) | AppendAttribute (xpath prefix uri name value : bytes)
  | AppendXslt (sheet : nat) | AppendRng (schema : nat) | AppendParam (name value : bytes) | AppendStringParam (name value : bytes) | Clear.
(** srcml_transform.cpp:125-160: an attribute for the XPath before that has none is put on it; its namespace is not made (71-73 of the
    constructor) *)
Definition append_attribute (l : list item) (xpath prefix uri name value : bytes) : list item :=
  let new := Item (TXPath (xpath_attribute xpath prefix uri name value)) [] in
  match rev l with
  | Item (TXPath p) ps :: before =>
      if beqb (x_xpath p) xpath && (empty (x_attr_prefix p) && empty (x_attr_uri p) && empty (x_attr_name p) && empty (x_attr_value p))
      then rev before ++ [Item (TXPath (XPathT (x_xpath p) (x_element p) (x_element_ns p) prefix uri name value (x_attr_ns p))) ps]
      else l ++ [new]
  | _ => l ++ [new]
  end.
(** 412-450 *)
Definition append_param (l : list item) (name value : bytes) : status * list item :=
  match rev l with
  | [] => (ST_NO_TRANSFORMATION, l)
  | it :: before => (ST_OK, rev before ++ [Item (i_trans it) (i_params it ++ [name; value])])
  end.
(** with arguments that are not null and stylesheets and schemas that could be read *)
Definition tstep (l : list item) (c : tcall) : status * list item :=
  match c with
  | AppendXPath x => (ST_OK, l ++ [Item (TXPath (xpath_plain x)) []])
  | AppendElement x p u e => (ST_OK, l ++ [Item (TXPath (xpath_element x p u e)) []])
  | AppendAttribute x p u n v => (ST_OK, append_attribute l x p u n v)
  | AppendXslt s => (ST_OK, l ++ [Item (TXslt s) []])
  | AppendRng s => (ST_OK, l ++ [Item (TRng s) []])
  | AppendParam n v => append_param l n v
  | AppendStringParam n v => append_param l n ([34] ++ v ++ [34])
  | Clear => (ST_OK, [])
  end.
Definition truns (cs : list tcall) (l : list item) : list item := fold_left (fun l c => snd (tstep l c)) cs l.

(** ** One transformation of one document *)
(** srcml.h:1186-1190 *)
Definition RESULT_NONE : N := 0. Definition RESULT_UNITS : N := 1. Definition RESULT_BOOLEAN : N := 2.
Definition RESULT_NUMBER : N := 3. Definition RESULT_STRING : N := 4.
(** Transformation.hpp:36-46, [doc] apart *)
Record tresult := TResult { r_type : N; r_nodes : option (list nat); r_number : N; r_bool : bool; r_string : bytes; r_wrapped : bool }.
Definition no_result : tresult := TResult 0 None 0 false [] false.
Definition units_result (l : list nat) (wrapped : bool) : tresult := TResult RESULT_UNITS (Some l) 0 false [] wrapped.
(** xmlDocGetRootElement *)
Definition root_element (tops : list tree) : option tree := find (is_kind Elem) tops.
Definition root_set (tops : list tree) : list nat := match root_element tops with Some t => [root_id t] | None => [] end.
(** xmlGetNsProp: the attribute with the name in the namespace *)
Definition get_ns_prop (ch : list tree) (name uri : bytes) : option bytes :=
  match find (fun t => is_kind Attr t && beqb (n_name (root_label t)) name &&
                       match n_ns (root_label t) with Some (_, u) => beqb u uri | None => false end) ch with
  | Some t => Some (n_content (root_label t))
  | None => None
  end.
(** the attributes come first *)
Fixpoint attrs_of (ch : list tree) : list tree := match ch with t :: r => if is_kind Attr t then t :: attrs_of r else [] | [] => [] end.
Fixpoint inside (ch : list tree) : list tree := match ch with t :: r => if is_kind Attr t then inside r else ch | [] => [] end.
(** xpathTransformation.cpp:165-183 append_attribute_to_node, on an element: the new attribute goes after the others, whatever is there *)
Definition add_attribute (x : xpath_t) (uri : bytes) (new : nat) (t : tree) : tree :=
  match t with
  | Node i l ch =>
      let value := match get_ns_prop ch (x_attr_name x) uri with
                   | Some v => if beqb v (x_attr_value x) then x_attr_value x else v ++ [32] ++ x_attr_value x
                   | None => x_attr_value x
                   end in
      Node i l (attrs_of ch ++ [Node new (Label Attr (x_attr_name x) (x_attr_ns x) value) []] ++ inside ch)
  end.
Definition mark (x : xpath_t) (new : nat) (t : tree) : list tree :=
  [if is_kind Elem t then add_attribute x (x_attr_value x) new t else t].
(** 360-396 addElementXPathResults, for a result below the root: it is put into a new element, with the attribute if there is one; an
    attribute node is not replaced by xmlReplaceNode and goes with the new element, that is nowhere *)
Definition wrapper (x : xpath_t) (new : nat) : tree :=
  let el := Node new (Label Elem (x_element x) (x_element_ns x) []) [] in
  if empty (x_attr_name x) then el else add_attribute x (x_attr_uri x) (S new) el.
Definition wrap (x : xpath_t) (new : nat) (t : tree) : list tree :=
  if is_kind Attr t then []
  else match wrapper x new with Node i l ch => [Node i l (ch ++ [t])] end.
(** 385-394: the root is kept, its content is put into a new element. The parent pointers of the content are not set: with other results
    the tree is not one any more ([UB] in the model, if there is more than the root) *)
Definition wrap_root (x : xpath_t) (new : nat) (t : tree) : list tree :=
  match t with Node i l ch => match wrapper x new with Node j m a => [Node i l (attrs_of ch ++ [Node j m (a ++ inside ch)])] end end.
Fixpoint wrap_all (x : xpath_t) (new : nat) (nodes : list nat) (tops : list tree) : list tree :=
  match nodes with [] => tops | i :: r => wrap_all x (S (S new)) r (flat_map (change i (wrap x new)) tops) end.
Fixpoint mark_all (x : xpath_t) (new : nat) (nodes : list nat) (tops : list tree) : list tree :=
  match nodes with [] => tops | i :: r => mark_all x (S (S new)) r (flat_map (change i (mark x new)) tops) end.
Definition name_of (tops : list tree) (i : nat) : bytes := match flat_map (seek i) tops with t :: _ => n_name (root_label t) | [] => [] end.
(** xpathTransformation.cpp:254-358; gives the document afterwards and the result. 274: the first child has nsDef unless it is an attribute *)
Definition apply_xpath (g : engines) (x : xpath_t) (new : nat) (tops : list tree) : outcome (list tree * tresult) :=
  match tops with
  | [] => UB
  | first :: _ =>
      if is_kind Attr first then UB else
      match xpath_eval g (x_xpath x) tops with
      | None => Ok (tops, no_result)
      | Some (XBoolean b) => Ok (tops, TResult RESULT_BOOLEAN None 0 b [] false)
      | Some (XNumber n) => Ok (tops, TResult RESULT_NUMBER None n false [] false)
      | Some (XString s) => Ok (tops, TResult RESULT_STRING None 0 false s false)
      | Some (XNodes o) =>
          let nodes := match o with Some l => l | None => [] end in
          if negb (empty (x_element x)) then
            if existsb (fun i => existsb (Nat.eqb i) (root_set tops)) nodes then
              match nodes with
              | [i] => let tops := flat_map (change i (wrap_root x new)) tops in Ok (tops, units_result (root_set tops) true)
              | _ => UB
              end
            else let tops := wrap_all x new nodes tops in Ok (tops, units_result (root_set tops) true)
          else if negb (empty (x_attr_name x)) then
            let tops := mark_all x new nodes tops in Ok (tops, units_result (root_set tops) true)
          else match nodes with
               | [] => Ok (tops, no_result)
               | i :: _ => Ok (tops, units_result nodes (beqb (name_of tops i) (txt "unit")))
               end
      end
  end.
(** xsltTransformation.cpp:121-178; gives the new document *)
Definition apply_xslt (g : engines) (sheet : nat) (params : list bytes) (new : nat) (tops : list tree) : outcome (option (list tree) * tresult) :=
  match xslt_run g sheet params new tops with
  | None | Some [] => Ok (None, no_result)
  | Some (c :: r) =>
      let res := c :: r in
      if match r with d :: _ => is_kind Elem d | [] => false end
      then Ok (Some res, units_result (map root_id (filter (is_kind Elem) res)) true)
      else if is_kind Elem c then Ok (Some res, units_result [root_id c] true)
      else match raw_text g res with
           | Some s => Ok (Some res, TResult RESULT_STRING (Some [root_id c]) 0 false s true)
           | None => UB
           end
  end.
(** relaxngTransformation.cpp:49-62 *)
Definition apply_rng (g : engines) (schema : nat) (tops : list tree) : tresult :=
  if rng_valid g schema tops then units_result (root_set tops) true else no_result.
(** the document afterwards, the new document, if any, and the result *)
Definition apply_item (g : engines) (it : item) (new : nat) (tops : list tree) : outcome (list tree * option (list tree) * tresult) :=
  match i_trans it with
  | TXPath x => obind (apply_xpath g x new tops) (fun p => Ok (fst p, None, snd p))
  | TXslt s => obind (apply_xslt g s (i_params it) new tops) (fun p => Ok (tops, fst p, snd p))
  | TRng s => Ok (tops, None, apply_rng g s tops)
  end.

(** ** All transformations (srcml_transform.cpp:507-607) *)
(** memory: the trees with the document they are in, or in none *)
Record heap := Heap { h_trees : list (option nat * tree); h_node : nat; h_doc : nat }.
Definition in_doc (d : nat) (e : option nat * tree) : bool := match fst e with Some x => Nat.eqb d x | None => false end.
Definition tops (d : nat) (h : heap) : list tree := map snd (filter (in_doc d) (h_trees h)).
(** the entries of [l], those of the document replaced by the trees [ts], in the place of the first *)
Definition put_tops (d : nat) (ts : list tree) (l : list (option nat * tree)) : list (option nat * tree) :=
  filter (fun e => negb (in_doc d e)) l ++ map (fun t => (Some d, t)) ts.
Definition next_id (h : heap) : nat := S (list_max (h_node h :: flat_map (fun e => ids (snd e)) (h_trees h))).
(** the first element of the document, exchanged *)
Fixpoint exchange (d : nat) (t : tree) (l : list (option nat * tree)) : option (list (option nat * tree)) :=
  match l with
  | [] => None
  | e :: r => if in_doc d e && is_kind Elem (snd e) then Some ((Some d, t) :: (None, snd e) :: r)
              else match exchange d t r with Some r => Some (e :: r) | None => None end
  end.
(** xmlDocSetRootElement: unlinked, and in the place of the root element, or after the others; an attribute is not put in the place of
    an element. The node may have been freed. *)
Definition set_root (d i : nat) (h : heap) : outcome heap :=
  match flat_map (fun e => seek i (snd e)) (h_trees h) with
  | [] => UB
  | t :: _ =>
      let rest := flat_map (fun e => map (fun u => (fst e, u)) (prune i (snd e))) (h_trees h) in
      Ok (Heap (match exchange d t rest with
                | Some l => if is_kind Attr t then rest ++ [(None, t)] else l
                | None => rest ++ [(Some d, t)]
                end) (h_node h) (h_doc h))
  end.
(** the document is freed with what is in it *)
Definition free_doc (d : nat) (h : heap) : heap := Heap (filter (fun e => negb (in_doc d e)) (h_trees h)) (h_node h) (h_doc h).
Definition merge_nodes (l r : list nat) : list nat := fold_left (fun l i => if existsb (Nat.eqb i) l then l else l ++ [i]) r l.
(** the state of the loop: memory, curdoc, lastresult and its document, fullresults. [doc] is document 0 *)
Record state := State { s_heap : heap; s_cur : nat; s_last : tresult; s_lastdoc : option nat; s_full : list nat }.
(** a shared_ptr to document [d] is gone; it is not kept by the others *)
Definition drop_doc (d : option nat) (keep : list nat) (h : heap) : heap :=
  match d with Some d => if existsb (Nat.eqb d) (0%nat :: keep) then h else free_doc d h | None => h end.
(** 552-562: one node *)
Definition apply_node (g : engines) (it : item) (i : nat) (s : state) : outcome state :=
  obind (set_root (s_cur s) i (s_heap s)) (fun h =>
  obind (apply_item g it (next_id h) (tops (s_cur s) h)) (fun '(ts, new, r) =>
    let h := Heap (put_tops (s_cur s) ts (h_trees h)) (h_node h) (h_doc h) in
    let (h, nd) := match new with
                   | Some u => (Heap (h_trees h ++ map (fun t => (Some (S (h_doc h)), t)) u) (h_node h) (S (h_doc h)), Some (S (h_doc h)))
                   | None => (h, None)
                   end in
    Ok (State (drop_doc (s_lastdoc s) [s_cur s] h) (s_cur s) r nd
              (match r_nodes r with Some l => merge_nodes (s_full s) l | None => s_full s end)))).
Fixpoint apply_nodes (g : engines) (it : item) (nodes : list nat) (s : state) : outcome state :=
  match nodes with
  | [] => Ok s
  | i :: r => obind (apply_node g it i s) (fun s => match r_nodes (s_last s) with Some _ => apply_nodes g it r s | None => Ok s end)
  end.
(** 545-578; [presult]: the caller wants the result *)
Fixpoint apply_all (g : engines) (presult : bool) (l : list item) (s : state) : outcome state :=
  match l with
  | [] => Ok s
  | it :: r =>
      obind (apply_nodes g it (s_full s) (State (s_heap s) (s_cur s) (s_last s) (s_lastdoc s) [])) (fun s =>
      let s := match s_lastdoc s with
               | Some d => if Nat.eqb d 0 then s
                           else State (drop_doc (Some (s_cur s)) [d] (s_heap s)) d (s_last s) (s_lastdoc s) (s_full s)
               | None => s
               end in
      match s_full s with
      | [] => if presult then Ok s else UB
      | _ => apply_all g presult r s
      end)
  end.

(** ** The results as units (srcml_transform.cpp:580-763) *)
(** 474-500 usesURI: an element, with a prefix *)
Definition uses_here (uri : bytes) (t : tree) : bool :=
  match n_ns (root_label t) with Some (Some _, u) => beqb uri u | _ => false end.
Fixpoint uses_uri (uri : bytes) (t : tree) : bool :=
  match t with
  | Node i l ch => uses_here uri (Node i l []) || existsb (fun c => negb (is_kind Attr c) && uses_uri uri c) ch
  end.
Definition set_flag (b : bool) (f : N) (n : ns) : ns :=
  Ns (ns_prefix n) (ns_uri n) (if b then N.lor (ns_flags n) f else N.ldiff (ns_flags n) f).
(** 630-641, 685-700 for one of the two namespaces *)
Definition use_namespace (uri prefix : bytes) (elem used : bool) (l : list ns) : list ns :=
  match find_uri l uri with
  | Some _ => let l := modify_uri l uri (set_flag false NS_USED) in
              if elem && used then modify_uri l uri (set_flag true NS_USED) else l
  | None => if elem && used then l ++ [Ns prefix uri (N.lor NS_USED NS_STANDARD)] else l
  end.
(** 644-702: what is put into the unit *)
Definition content_of (g : engines) (t : tree) : bytes :=
  match n_kind (root_label t) with
  | Comment => txt "<!--" ++ n_content (root_label t) ++ txt "-->"
  | Text => n_content (root_label t)
  | Attr => n_name (root_label t) ++ txt "=""" ++ n_content (root_label t) ++ txt """"
  | Elem => xml_dump g t
  end.
Fixpoint first_of (c : N) (s : bytes) : option nat :=
  match s with [] => None | x :: r => if x =? c then Some 0%nat else match first_of c r with Some n => Some (S n) | None => None end end.
Definition last_of (c : N) (s : bytes) : option nat :=
  match first_of c (rev s) with Some n => Some (length s - 1 - n)%nat | None => None end.
(** npos + 1 is 0 *)
Definition after_index (o : option nat) : Z := match o with Some n => Z.of_nat (S n) | None => 0%Z end.
Definition decimal (n : nat) : bytes := txt (NilZero.string_of_uint (Nat.to_uint n)).
(** 612-757 *)
Definition as_attrs (u : uobj) : uattrs :=
  UAttrs (u_timestamp (uo_settings u)) (u_hash (uo_settings u)) (u_language (uo_settings u)) (uo_revision u) (u_filename (uo_settings u)) (uo_url u)
    (u_version (uo_settings u)) (uo_attributes u).
Definition result_unit (g : engines) (u : uobj) (wrapped : bool) (n : nat) (t : tree) : outcome uobj :=
  let c := unit_clone u in
  let nss := match uo_namespaces c with Some l => l | None => starting_namespaces end in
  let elem := is_kind Elem t in
  let nss := use_namespace OPENMP_URI (txt "omp") elem (uses_uri OPENMP_URI t) (use_namespace CPP_URI (txt "cpp") elem (uses_uri CPP_URI t) nss) in
  let srcml := if is_kind Comment t then content_of g t else uo_srcml c ++ content_of g t in
  let attrs := if wrapped then uo_attributes c else uo_attributes c ++ [txt "item"; decimal (S n)] in
  let set := uo_settings c in
  let set := if wrapped then set else uset set UHash None in
  let c := UObj (uo_archive c) set (uo_revision c) (uo_url c) attrs (uo_derived c) (Some nss) (uo_output c) (uo_translator c) true true srcml
             (uo_src c) (uo_raw c) (uo_fragment c)
             (if wrapped then (after_index (first_of 62 srcml), after_index (last_of 60 srcml)) else (0, Z.of_nat (length srcml) + 1)%Z)
             (0, 0)%Z (uo_loc c) (uo_error c) in
  if wrapped && elem then
    (* 713-752: the attributes of the start tag. Simplified: what is not an element has none (the text up to the first > is parsed) *)
    obind (update_attributes (as_attrs c) (map (fun a => (n_name (root_label a), n_content (root_label a))) (attrs_of (children t)))) (fun a =>
    Ok (UObj (uo_archive c)
          (USettings (u_encoding set) (ua_language a) (ua_filename a) (ua_version a) (ua_timestamp a) (ua_hash a) (u_eol set))
          (ua_revision a) (ua_url a) (ua_attributes a) (uo_derived c) (uo_namespaces c) (uo_output c) (uo_translator c) true true (uo_srcml c)
          (uo_src c) (uo_raw c) (uo_fragment c) (uo_content c) (uo_insert c) (uo_loc c) (uo_error c)))
  else Ok c.
Fixpoint result_units (g : engines) (u : uobj) (wrapped : bool) (h : heap) (n : nat) (l : list nat) : outcome (list uobj) :=
  match l with
  | [] => Ok []
  | i :: r => match flat_map (fun e => seek i (snd e)) (h_trees h) with
              | [] => UB
              | t :: _ => obind (result_unit g u wrapped n t) (fun v => obind (result_units g u wrapped h (S n) r) (fun l => Ok (v :: l)))
              end
  end.
(** srcml_transform_result, as its getters give it *)
Record result := Result { t_type : N; t_units : list uobj; t_bool : bool; t_number : option N; t_string : option bytes }.
Inductive answer := Untouched | Answer (s : status) (r : option result).
(** 507-763 *)
Definition apply_transforms (g : engines) (l : list item) (u : uobj) (presult : bool) : outcome answer :=
  match l with
  | [] => Ok Untouched
  | _ =>
      match xml_parse g (uo_srcml u) with
      | None => Ok (Answer ST_ERROR (if presult then Some (Result RESULT_NONE [] false None None) else None))
      | Some t =>
          obind (apply_all g presult l (State (Heap [(Some 0%nat, t)] 0 0) 0 no_result None [root_id t])) (fun s =>
          let r := s_last s in
          let scalar := (r_type r =? RESULT_STRING) || (r_type r =? RESULT_BOOLEAN) || (r_type r =? RESULT_NUMBER) in
          if negb presult then Ok (Answer (if scalar then ST_ERROR else ST_OK) None)
          else if r_type r =? RESULT_STRING then Ok (Answer ST_OK (Some (Result (r_type r) [] false None (Some (r_string r)))))
          else if r_type r =? RESULT_BOOLEAN then Ok (Answer ST_OK (Some (Result (r_type r) [] (r_bool r) None None)))
          else if r_type r =? RESULT_NUMBER then Ok (Answer ST_OK (Some (Result (r_type r) [] false (Some (r_number r)) None)))
          else
            obind (result_units g u (r_wrapped r) (s_heap s) 0 (if r_type r =? RESULT_UNITS then s_full s else [])) (fun us =>
            Ok (Answer ST_OK (Some (Result (r_type r) us false None None)))))
      end
  end.
