(** Reading a start tag as XML does, and what the root of a written archive says (C43). *)
From Verif Require Import Base Text_Model Text_Spec Text_Proofs3 Api_Model Api_Spec Writer_Model Writer_Spec Root_Model.
Local Open Scope N_scope.

(** ** XML *)
(** [xml_value e v]: [e] stands between double quotes and its value is [v]; a raw line break or tab counts as a blank *)
Inductive xml_value : bytes -> bytes -> Prop :=
| xv_nil : xml_value [] []
| xv_plain c e v : 32 <= c -> c <> 60 -> c <> 38 -> c <> 34 -> xml_value e v -> xml_value (c :: e) (c :: v)
| xv_blank c e v : c = 9 \/ c = 10 \/ c = 13 -> xml_value e v -> xml_value (c :: e) (32 :: v)
| xv_ref c r e v : In (c, r) references -> xml_value e v -> xml_value (r ++ e) (c :: v).
(** names: no blank or control character, none of quote, ampersand, apostrophe, slash, '<', '=', '>'; with or without colon *)
Definition name_byte (c : N) : Prop := 33 <= c /\ c <> 34 /\ c <> 38 /\ c <> 39 /\ c <> 47 /\ c <> 60 /\ c <> 61 /\ c <> 62.
Definition qname (n : bytes) : Prop := n <> [] /\ Forall name_byte n.
Definition ncname (n : bytes) : Prop := qname n /\ ~ In 58 n.
(** the attributes of a start tag: no name twice *)
Inductive xml_attrs : bytes -> list (bytes * bytes) -> Prop :=
| xa_nil : xml_attrs [] []
| xa_cons n e v s l : qname n -> xml_value e v -> ~ In n (map fst l) -> xml_attrs s l ->
    xml_attrs ([32] ++ n ++ txt "=""" ++ e ++ [34] ++ s) ((n, v) :: l).
(** a start tag without its final '>' *)
Definition xml_tag (s name : bytes) (l : list (bytes * bytes)) : Prop :=
  exists t, s = [60] ++ name ++ t /\ qname name /\ xml_attrs t l.
(** how a SAX2 parser gives them: declarations as prefix and URI, attributes with their local name *)
Definition declares (n : bytes) : option (option bytes) :=
  if bytes_dec n (txt "xmlns") then Some None
  else if bytes_dec (firstn 6 n) (txt "xmlns:") then Some (Some (skipn 6 n)) else None.
Fixpoint sax_namespaces (l : list (bytes * bytes)) : list (option bytes * bytes) :=
  match l with
  | [] => []
  | (n, v) :: l => match declares n with Some p => (p, v) :: sax_namespaces l | None => sax_namespaces l end
  end.
Fixpoint local_name (n : bytes) : bytes :=
  match n with [] => [] | c :: r => if in_dec N.eq_dec 58 r then local_name r else if c =? 58 then r else n end.
Fixpoint sax_attributes (l : list (bytes * bytes)) : list (bytes * bytes) :=
  match l with
  | [] => []
  | (n, v) :: l => match declares n with Some _ => sax_attributes l | None => (local_name n, v) :: sax_attributes l end
  end.
(** text XML can carry at all *)
Definition xml_chars (v : bytes) : Prop := Forall (fun c => 32 <= c \/ c = 9 \/ c = 10 \/ c = 13) v.
Definition xml_chars_opt (v : option bytes) : Prop := match v with Some v => xml_chars v | None => True end.

(** ** The root of an archive *)
(** the prefix the root of an archive gives a URI: position and error only with their option, never cpp or openmp *)
Definition root_prefix (a : archive) (u : bytes) : option bytes :=
  if bytes_dec u CPP_URI then None
  else if bytes_dec u OPENMP_URI then None
  else if bytes_dec u POSITION_URI then if N.testbit (a_options a) 2 then or_else (prefix_from_uri a u) (Some (txt "pos")) else None
  else if bytes_dec u ERROR_URI then if N.testbit (a_options a) 11 then or_else (prefix_from_uri a u) (Some (txt "err")) else None
  else prefix_from_uri a u.
(** attribute names with a meaning of their own *)
Definition reserved : list bytes :=
  [txt "timestamp"; txt "language"; txt "revision"; txt "filename"; txt "url"; txt "version"; txt "tabs"; txt "options"; txt "hash"; txt "xmlns"].
(** the settings XML can express, with no prefix used twice *)
Definition expressible (a : archive) (al : list bytes) : Prop :=
  (forall u p, root_prefix a u = Some p ->
     (p = [] \/ ncname p /\ p <> txt "xmlns" /\ p <> txt "xml") /\ u <> [] /\ xml_chars u /\ uri_normalize u = u /\
     forall v, root_prefix a v = Some p -> v = u) /\
  xml_chars_opt (a_revision a) /\ xml_chars_opt (a_url a) /\ xml_chars_opt (a_version a) /\
  NoDup (map fst (pairs_of al)) /\ Nat.even (length al) = true /\
  forall n v, In (n, v) (pairs_of al) -> ncname n /\ ~ In n reserved /\ xml_chars v.

(** archives that calls and reading can produce, with their attributes *)
Inductive produced : archive * list bytes -> Prop :=
| produced_new : produced (archive_create, [])
| produced_call a al c : produced (a, al) -> produced (snd (step a c), al)
| produced_root b nss ats t : produced t -> produced (start_root b nss ats t).

(** what reading the root of [a] into [a0] must give *)
Definition restored (b : bool) (a : archive) (al : list bytes) (a0 : archive) (al0 : list bytes) (t : archive * list bytes) : Prop :=
  let a' := fst t in
  a_revision a' = or_else (a_revision a) (a_revision a0) /\
  get_attr a' AUrl = or_else (get_attr a AUrl) (get_attr a0 AUrl) /\
  get_attr a' AVersion = or_else (get_attr a AVersion) (get_attr a0 AVersion) /\
  a_tabstop a' = (if N.testbit (a_options a) 2 then a_tabstop a else a_tabstop a0) /\
  (forall u, prefix_from_uri a' u = or_else (root_prefix a u) (prefix_from_uri a0 u)) /\
  (* options: positions, CPP_TEXT_ELSE, CPP_MARKUP_IF0, LINE, DEBUG; 14 is the archive's own kind *)
  (forall i, N.testbit (a_options a') i =
     (if (i =? 14) && negb b then false else N.testbit (a_options a0) i) || (if in_dec N.eq_dec i [2; 4; 5; 10; 11] then N.testbit (a_options a) i else false)) /\
  snd t = al0 ++ al /\
  (* the rest is as it was *)
  get_attr a' SrcEncoding = get_attr a0 SrcEncoding /\ get_attr a' XmlEncoding = get_attr a0 XmlEncoding /\ get_attr a' ALanguage = get_attr a0 ALanguage /\
  a_pi a' = a_pi a0 /\ a_extensions a' = a_extensions a0 /\ a_macros a' = a_macros a0.
