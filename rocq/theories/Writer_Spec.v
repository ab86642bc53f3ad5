(** Specifications for written srcML: element trees and how they appear as XML. *)
From Verif Require Import Base Text_Model Text_Spec Api_Model Writer_Model.
Local Open Scope N_scope.

(** ** Trees *)
(** attribute values are plain; [Chars] is escaped text as it stands in the document *)
Inductive node := Chars (s : bytes) | Elem (name : bytes) (al : list (bytes * bytes)) (kids : list node).
Fixpoint xml (n : node) : bytes :=
  match n with
  | Chars s => s
  | Elem name al kids =>
      [60] ++ name ++ attrs al ++
      match kids with [] => txt "/>" | _ => [62] ++ flat_map xml kids ++ txt "</" ++ name ++ [62] end
  end.
Definition xml_all (l : list node) : bytes := flat_map xml l.

(** [attr_value e v]: [e] is text allowed between double quotes, without raw '<', '>' or quote, standing for [v] *)
Definition references : list (N * bytes) :=
  [(60, txt "&lt;"); (62, txt "&gt;"); (38, txt "&amp;"); (34, txt "&quot;"); (10, txt "&#10;"); (9, txt "&#9;"); (13, txt "&#13;")].
Inductive attr_value : bytes -> bytes -> Prop :=
| av_nil : attr_value [] []
| av_plain c e v : c <> 60 -> c <> 62 -> c <> 38 -> c <> 34 -> attr_value e v -> attr_value (c :: e) (c :: v)
| av_ref c r e v : In (c, r) references -> attr_value e v -> attr_value (r ++ e) (c :: v).
(** [char_data e v]: text between tags; quotes may be raw *)
Inductive char_data : bytes -> bytes -> Prop :=
| cd_nil : char_data [] []
| cd_plain c e v : c <> 60 -> c <> 62 -> c <> 38 -> char_data e v -> char_data (c :: e) (c :: v)
| cd_ref c r e v : In (c, r) references -> char_data e v -> char_data (r ++ e) (c :: v).

(** ** Writing by element, as a tree being built *)
(** an element still open: its attributes, the namespace declarations libxml2 puts after them, its children so far *)
Record frame := Frame { f_name : bytes; f_attrs : list (bytes * bytes); f_decls : list (bytes * bytes); f_kids : list node }.
Definition finished (f : frame) : node := Elem (f_name f) (f_attrs f ++ f_decls f) (f_kids f).
(** the open elements, innermost first, and the children of the unit so far *)
Definition building := (list frame * list node)%type.
Definition add_kid (b : building) (n : node) : building :=
  match fst b with
  | [] => ([], snd b ++ [n])
  | f :: r => (Frame (f_name f) (f_attrs f) (f_decls f) (f_kids f ++ [n]) :: r, snd b)
  end.
(** ending everything that is open: the children of the unit *)
Fixpoint completed (fs : list frame) (last : list node) (root : list node) : list node :=
  match fs with
  | [] => root ++ last
  | f :: r => completed r [finished (Frame (f_name f) (f_attrs f) (f_decls f) (f_kids f ++ last))] root
  end.
Definition contents (b : building) : list node := completed (fst b) [] (snd b).
(** '<', '>', '&' and carriage return as references *)
Definition escaped (s : bytes) : bytes :=
  flat_map (fun c => if c =? 60 then txt "&lt;" else if c =? 62 then txt "&gt;" else if c =? 38 then txt "&amp;"
                     else if c =? 13 then txt "&#13;" else [c]) s.
Definition full_name (prefix : option bytes) (name : bytes) : bytes := match prefix with Some p => p ++ txt ":" ++ name | None => name end.
Definition decl_name (prefix : option bytes) : bytes := match prefix with Some p => txt "xmlns:" ++ p | None => txt "xmlns" end.
(** the value already declared for a prefix on the element being started *)
Definition bound (f : frame) (prefix : option bytes) : option bytes :=
  match find (fun d => beqb (fst d) (decl_name prefix)) (f_decls f) with Some d => Some (snd d) | None => None end.
(** the status and the tree after one call *)
Definition spec_call (b : building) (c : wcall_el) : status * building :=
  match c with
  | EStart p n uri =>
      if beqb n (txt "unit") then (ST_INVALID_INPUT, b)
      else let decl := match uri with
                       | Some u => if beqb u SRC_URI then [] else [(decl_name p, u)]
                       | None => [] end in
           (ST_OK, (Frame (full_name p n) [] decl [] :: fst b, snd b))
  | EEnd => match fst b with
            | [] => (ST_INVALID_INPUT, b)
            | f :: r => (ST_OK, add_kid (r, snd b) (finished f))
            end
  | EString _ s => (ST_OK, add_kid b (Chars (escaped s)))
  | ENamespace p u =>
      match fst b with
      | Frame q al ds [] :: r => (ST_OK, (Frame q (al ++ [(decl_name p, u)]) ds [] :: r, snd b))
      | _ => (ST_INVALID_INPUT, b)
      end
  | EAttribute p n uri v =>
      match n, fst b with
      | _ :: _, (Frame q al ds [] as f) :: r =>
          match uri with
          | None => (ST_OK, (Frame q (al ++ [(full_name p n, v)]) ds [] :: r, snd b))
          | Some u => match bound f p with
                      | Some u' => if beqb u u' then (ST_OK, (Frame q (al ++ [(full_name p n, v)]) ds [] :: r, snd b))
                                   else (ST_INVALID_INPUT, b)
                      | None => (ST_OK, (Frame q (al ++ [(full_name p n, v)]) ((decl_name p, u) :: ds) [] :: r, snd b))
                      end
          end
      | _, _ => (ST_INVALID_INPUT, b)
      end
  end.
Fixpoint spec_calls (b : building) (cs : list wcall_el) : list status * building :=
  match cs with
  | [] => ([], b)
  | c :: cs => let r := spec_call b c in let q := spec_calls (snd r) cs in (fst r :: fst q, snd q)
  end.
(** The calls for which the tree is what is written. Excluded (each is refuted separately): ending more elements than
    were started, attributes or namespaces on the unit itself, an attribute with a namespace after content,
    an empty element name, a constant string with a quote. *)
Definition proper (b : building) (c : wcall_el) : Prop :=
  match c with
  | EStart _ n _ => n <> []
  | EEnd => fst b <> []
  | ENamespace _ _ => fst b <> [] \/ snd b <> []
  | EAttribute _ n uri _ => (fst b <> [] \/ snd b <> []) /\
      (match fst b with f :: _ => f_kids f = [] | [] => False end \/ uri = None \/ n = [])
  | EString w s => w = true \/ ~ In 34 s
  end.
Fixpoint all_proper (b : building) (cs : list wcall_el) : Prop :=
  match cs with [] => True | c :: cs => proper b c /\ all_proper (snd (spec_call b c)) cs end.
(** C strings *)
Definition clean (s : bytes) : Prop := no_byte 0 s.
Definition clean_opt (o : option bytes) : Prop := match o with Some s => clean s | None => True end.
Definition clean_call (c : wcall_el) : Prop :=
  match c with
  | EStart p n u => clean_opt p /\ clean n /\ clean_opt u
  | EEnd => True
  | ENamespace p u => clean_opt p /\ clean u
  | EAttribute p n u v => clean_opt p /\ clean n /\ clean_opt u /\ clean v
  | EString _ s => clean s
  end.

(** ** Trees of parser tokens *)
Inductive tree :=
| TreeText (s : bytes)
| TreeEmpty (ns_index : nat) (name : bytes) (al : list (bytes * bytes))
| TreeElem (ns_index : nat) (name : bytes) (al : list (bytes * bytes)) (position : bytes) (kids : list tree).
Fixpoint tokens_of (t : tree) : list token :=
  match t with
  | TreeText s => [TText s]
  | TreeEmpty i n al => [TEmpty i n al]
  | TreeElem i n al p kids => TStart i n al p :: flat_map tokens_of kids ++ [TEnd]
  end.
(** the XML of a tree; [pre i] is the prefix of namespace number [i] *)
Definition prefixed (p name : bytes) : bytes := match p with [] => name | _ => p ++ txt ":" ++ name end.
Fixpoint tree_xml (pre : nat -> bytes) (t : tree) : bytes :=
  match t with
  | TreeText s => process_text s
  | TreeEmpty i n al => [60] ++ prefixed (pre i) n ++ attrs al ++ txt "/>"
  | TreeElem i n al p kids =>
      [60] ++ prefixed (pre i) n ++ attrs al ++ p ++
      match kids with [] => txt "/>" | _ => [62] ++ flat_map (tree_xml pre) kids ++ txt "</" ++ prefixed (pre i) n ++ [62] end
  end.
Fixpoint good_tree (t : tree) : Prop :=
  let good_attrs (al : list (bytes * bytes)) := Forall (fun a => fst a <> [] /\ clean (fst a) /\ clean (snd a)) al in
  match t with
  | TreeText s => clean s
  | TreeEmpty _ n al => n <> [] /\ clean n /\ good_attrs al
  | TreeElem _ n al p kids => n <> [] /\ clean n /\ good_attrs al /\ clean p /\
      (fix all l := match l with [] => True | t :: l => good_tree t /\ all l end) kids
  end.

(** ** A complete unit: start tag without its final '>', name of the unit element, content if any *)
Definition unit_xml (tag name : bytes) (content : option bytes) : bytes :=
  match content with
  | None => tag ++ txt "/>"
  | Some c => tag ++ txt ">" ++ c ++ txt "</" ++ name ++ txt ">"
  end.
Definition content_of (kids : list node) : option bytes := match kids with [] => None | _ => Some (xml_all kids) end.
Definition text_of (c : option bytes) : bytes := match c with Some s => s | None => [] end.
(** the name of the unit element: it carries the prefix of the srcML namespace *)
Definition unit_name (l : list ns) : bytes := prefixed (match find_uri l SRC_URI with Some n => ns_prefix n | None => [] end) (txt "unit").
(** ** Start tags of units, without the final '>' *)
Definition named (l : list (bytes * bytes)) : list (bytes * bytes) := filter (fun p => negb (beqb (fst p) [])) l.
(** the namespaces as they are when the declarations are written *)
Definition ns_now (o : sout) : list ns := mark_options (so_options o) (mark SRC (so_ns o)).
Definition tag_attrs (o : sout) (g : tag_args) : list (bytes * bytes) :=
  (if opt (so_options o) B_NAMESPACE_DECL then map ns_attr (filter (declared (so_options o) (so_depth o)) (ns_now o)) else []) ++
  named (unit_attrs o g).
Definition start_tag (o : sout) (g : tag_args) : bytes :=
  [60] ++ prefixed (prefix_at SRC (so_ns o)) (txt "unit") ++ attrs (tag_attrs o g).
(** the output object and arguments for a unit (srcml_write_start_unit) *)
Definition unit_namespaces (a : archive) (u : uobj) : list ns := match uo_namespaces u with Some l => l | None => a_namespaces a end.
Definition unit_out (a : archive) (u : uobj) : sout :=
  init_namespaces (SOut (Some new_writer) 0 false [] (clear_archive (a_options a)) (dec_of (a_tabstop a)) (a_macros a) None
                        (default_to (a_encoding a) (txt "UTF-8")) []) (unit_namespaces a u).
Definition unit_tag (a : archive) (u : uobj) : bytes := start_tag (unit_out a u) (start_args a u (uo_revision u)).
Definition unit_element (a : archive) (u : uobj) : bytes := prefixed (prefix_at SRC (so_ns (unit_out a u))) (txt "unit").
Definition contains (s p : bytes) : Prop := exists x y, s = x ++ p ++ y.
(** what makes the search for the first namespace declaration find it: the unit's prefix contains no quote and no "xmlns" *)
Definition prefix_ok (p : bytes) : Prop := no_byte 34 p /\ ~ contains p (txt "xmlns").
(** every string of the unit and of its archive's settings is a C string *)
Definition clean_ns (n : ns) : Prop := clean (ns_prefix n) /\ clean (ns_uri n).
Definition clean_unit (a : archive) (u : uobj) : Prop :=
  Forall clean_ns (unit_namespaces a u) /\ clean_opt (a_language a) /\
  clean_opt (uo_revision u) /\ clean_opt (uo_url u) /\ Forall clean (uo_attributes u) /\
  clean_opt (u_language (uo_settings u)) /\ clean_opt (u_filename (uo_settings u)) /\ clean_opt (u_version (uo_settings u)) /\
  clean_opt (u_timestamp (uo_settings u)) /\ clean_opt (u_hash (uo_settings u)) /\ clean_opt (u_encoding (uo_settings u)).
(** the units the theorems are about: the archive declares namespaces (not after srcml_archive_set_options, see C21) *)
Definition usable (a : archive) (u : uobj) : Prop :=
  opt (a_options a) B_NAMESPACE_DECL = true /\ prefix_ok (prefix_at SRC (so_ns (unit_out a u))) /\ clean_unit a u.
(** a unit object that differs from another only in what was written or read *)
Definition same_settings (u v : uobj) : Prop :=
  uo_archive v = uo_archive u /\ uo_settings v = uo_settings u /\ uo_revision v = uo_revision u /\ uo_url v = uo_url u /\
  uo_attributes v = uo_attributes u /\ uo_derived v = uo_derived u.
(** names without the characters that delimit them in a tag *)
Definition xml_name (n : bytes) : Prop := Forall (fun c => c <> 32 /\ c <> 34 /\ c <> 60 /\ c <> 61 /\ c <> 62) n.
(** an attribute that cannot be taken for the url attribute *)
Definition not_url (p : bytes * bytes) : Prop := xml_name (fst p) /\ fst p <> txt "url" /\ ~ contains (snd p) (txt " url=").
(** the start tag without the declaration of the srcML namespace, which comes first, and without the url *)
Definition outer_tag (a : archive) (u : uobj) : bytes :=
  [60] ++ unit_element a u ++
  attrs (filter (fun p => negb (beqb (fst p) (txt "url"))) (tl (tag_attrs (unit_out a u) (start_args a u (uo_revision u))))).
(** the search for the url attribute cannot be misled: names are XML names, no other value contains " url=", the user
    has added no attribute called url, and the unit has a revision (the default is the version of libsrcml) *)
Definition url_safe (a : archive) (u : uobj) : Prop :=
  (forall p, In p (tag_attrs (unit_out a u) (start_args a u (uo_revision u))) ->
     xml_name (fst p) /\ (fst p <> txt "url" -> ~ contains (snd p) (txt " url="))) /\
  ~ In (txt "url") (map fst (pairs_of (uo_attributes u))) /\ uo_revision u <> None.
(** the URI of a standard namespace by number, as the parser's elements use them *)
Definition standard_uri (i : nat) : option bytes := nth_error [SRC_URI; CPP_URI; ERROR_URI; POSITION_URI; OPENMP_URI] i.
(** some element of the trees is in namespace number [i] *)
Fixpoint uses (i : nat) (t : tree) : Prop :=
  match t with
  | TreeText _ => False
  | TreeEmpty j _ _ => i = j
  | TreeElem j _ _ _ kids => i = j \/ (fix any l := match l with [] => False | t :: l => uses i t \/ any l end) kids
  end.
Fixpoint any_uses (i : nat) (l : list tree) : Prop := match l with [] => False | t :: l => uses i t \/ any_uses i l end.
(** a namespace declaration as an attribute *)
Definition declaration (prefix uri : bytes) : bytes * bytes := (match prefix with [] => txt "xmlns" | _ => txt "xmlns:" ++ prefix end, uri).
(** the settings of a unit that a parse starts from, and those it ends with *)
Definition parse_start (a : archive) (u : uobj) (lang : N) (encoding : option bytes) : uobj := set_parse_start u lang (a_url a) encoding.
Definition parse_end (a : archive) (u : uobj) (lang : N) (encoding hash : option bytes) : uobj := set_reader_result (parse_start a u lang encoding) hash encoding.
(** the prefix of namespace number [i] in a unit of the archive *)
Definition prefix_of (a : archive) (u : uobj) (i : nat) : bytes := prefix_at i (so_ns (unit_out a u)).
Definition forest_content (pre : nat -> bytes) (ts : list tree) : option bytes :=
  match ts with [] => None | _ => Some (flat_map (tree_xml pre) ts) end.
