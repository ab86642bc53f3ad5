(** Vocabulary for C39 and for C27 on documents: srcML documents as their pieces, and what is to be read
    of a unit. *)
From Verif Require Import Base Text_Model Api_Model Writer_Model Handoff_Model Handoff_Spec Sax_Model.

(** * The pieces *)
(** An element: its start tag, content and end tag, "/>" of an empty element. *)
Record element := Element { e_tag : tag; e_content : list xev; e_end : bytes }.
Definition element_events (u : element) : list xev := XStart (e_tag u) :: e_content u ++ [XEnd (t_name (e_tag u)) (e_end u)].
(** An empty element is its start tag and "/>". *)
Definition end_ok (t : tag) (content : list xev) (raw : bytes) : Prop :=
  if t_empty t then content = [] /\ raw = txt "/>" else True.

(** Well-nested content. *)
Inductive balanced : list xev -> Prop :=
| bal_nil : balanced []
| bal_leaf e r : match e with XText _ _ _ | XComment _ _ | XCData _ _ | XPI _ => True | _ => False end -> balanced r -> balanced (e :: r)
| bal_element u r : balanced (e_content u) -> end_ok (e_tag u) (e_content u) (e_end u) -> balanced r ->
    balanced (element_events u ++ r).

(** What is excluded from content: character data beginning with a raw '>' (srcML writes "&gt;"), a comment
    right after a start tag, an escape element without attributes.  The rest is what an event is. *)
Definition event_ok (after_tag : bool) (e : xev) : Prop :=
  match e with
  | XStart t => (exists r, t_raw t = 60%N :: r) /\ (t_name t = txt "escape" -> t_attrs t <> [])
  | XEnd _ _ => True
  | XText plain raw text => (exists c r, raw = c :: r /\ c <> 62%N) /\ (plain = true -> raw = text)
  | XComment raw value => raw = txt "<!--" ++ value ++ txt "-->" /\ after_tag = false
  | XCData _ _ | XPI _ => True
  | XSkip _ => False
  end.
Fixpoint content_ok (after_tag : bool) (evs : list xev) : Prop :=
  match evs with
  | [] => True
  | e :: r => event_ok after_tag e /\ content_ok (match e with XStart t => negb (t_empty t) | _ => false end) r
  end.

(** The name of an element as written. *)
Definition qname (t : tag) : bytes := match t_prefix t with Some p => p ++ [58%N] | None => [] end ++ t_name t.
(** The start tag in two parts: "<name " and the attributes. *)
Definition tag_head (t : tag) : bytes := 60%N :: qname t ++ [32%N].
Definition tag_tail (t : tag) : bytes := skipn (length (tag_head t)) (t_raw t).
(** The cpp namespace is bound to a prefix. *)
Definition cpp_prefixed (t : tag) : Prop := Forall (fun n : option bytes * bytes => snd n = CPP_URI -> fst n <> None) (t_ns t).
(** A unit element: with attributes, if only so that a blank follows its name. *)
Definition unit_tag (t : tag) : Prop := t_name t = txt "unit" /\ t_raw t = tag_head t ++ tag_tail t /\ cpp_prefixed t.
Definition unit_ok (u : element) : Prop :=
  unit_tag (e_tag u) /\ balanced (e_content u) /\ content_ok false (e_content u) /\ end_ok (e_tag u) (e_content u) (e_end u).

(** Blanks, as libxml2 reports them. *)
Definition blank_event (e : xev) : Prop :=
  match e with XText false raw text => raw = text /\ raw <> [] /\ Forall (fun c => In c [32; 9; 10; 13]%N) raw | _ => False end.
Definition gap_event (e : xev) : Prop :=
  match e with XComment raw value => raw = txt "<!--" ++ value ++ txt "-->" | XPI _ => True | _ => blank_event e end.
(** Between units: nothing, or comments and blanks ending in a blank. *)
Definition gap (g : list xev) : Prop := g = [] \/ exists h b, g = h ++ [b] /\ Forall gap_event h /\ blank_event b.
(** Between the root's start tag and the first unit there may be macro lists. *)
Inductive preface : list xev -> Prop :=
| pre_nil : preface []
| pre_gap e r : gap_event e -> preface r -> preface (e :: r)
| pre_macro t raw r : t_name t = txt "macro-list" -> preface r -> preface (XStart t :: XEnd (txt "macro-list") raw :: r).
(** Before and after the root. *)
Definition outside (e : xev) : Prop := match e with XComment _ _ | XPI _ | XSkip _ => True | _ => False end.

(** * What is read of a unit *)
(** The text: character data and CDATA, and the characters that escape elements stand for. *)
Definition text_piece (e : xev) : bytes :=
  match e with
  | XText _ _ text => text
  | XCData _ value => value
  | XStart t => if beqb (t_name t) (txt "escape") then match t_attrs t with (_, v) :: _ => [read_escape v] | [] => [] end else []
  | _ => []
  end.
Definition content_text (evs : list xev) : bytes := concat (map text_piece evs).
(** Its lines, counting the last one if it has no line end; only line ends in character data count. *)
Definition char_piece (e : xev) : bytes := match e with XText _ _ text => text | _ => [] end.
Definition content_lines (evs : list xev) : nat :=
  count_byte 10 (concat (map char_piece evs)) +
  match content_text evs with [] => 0 | t => if N.eqb (last t 0%N) 10 then 0 else 1 end.
(** The element's text in the document after the start tag's attributes. *)
Definition element_rest (u : element) : bytes := (if t_empty (e_tag u) then [] else [62%N]) ++ text_of (e_content u) ++ e_end u.
(** The element as in the document, and with the root's namespaces in its start tag. *)
Definition element_text (u : element) : bytes := text_of (element_events u).
(** a declaration as an attribute, with the blank after it *)
Definition declaration_text (n : option bytes * bytes) : bytes :=
  txt "xmlns" ++ match fst n with Some p => txt ":" ++ p | None => [] end ++ txt "=""" ++ snd n ++ txt """ ".
Definition root_namespaces (root : tag) : bytes := concat (map declaration_text (t_ns root)).
Definition element_in (ns : bytes) (u : element) : bytes := tag_head (e_tag u) ++ ns ++ tag_tail (e_tag u) ++ element_rest u.
(** What the reader takes of it. *)
Definition unit_body (ns : bytes) (u : element) : ubody :=
  let h := length (tag_head (e_tag u)) in
  let c := h + length ns + length (tag_tail (e_tag u)) + 1 in
  UBody (element_in ns u) (content_text (e_content u)) (content_lines (e_content u))
        (c, c + length (text_of (e_content u)) + 1) (h, h + length ns).
(** srcml_reader_handler.hpp:450-459: the unit a body is put into. *)
Definition with_body (u : uobj) (b : ubody) : uobj :=
  set_content u (uo_namespaces u) (b_srcml b) true (Some (b_src b))
    (Z.of_nat (fst (b_content b)), Z.of_nat (snd (b_content b))) (Z.of_nat (fst (b_insert b)), Z.of_nat (snd (b_insert b))) (Z.of_nat (b_loc b)).

(** * Documents *)
(** How an archive ends: whole, with the root's end tag and what follows; broken off between units, or in
    the content of a unit, of which [p] is there and [q] missing. *)
Inductive ending := Whole (root_end : bytes) (trail : list xev) | CutBetween (g : list xev) | CutInside (t : tag) (p q : list xev).
Record archive_doc := ArchiveDoc
  { a_lead : list xev; a_root : tag; a_preface : list xev; a_units : list (element * list xev); a_ending : ending }.
Definition units_events (us : list (element * list xev)) : list xev := concat (map (fun p => element_events (fst p) ++ snd p) us).
Definition ending_events (d : ending) : list xev :=
  match d with Whole raw trail => XEnd (txt "unit") raw :: trail | CutBetween g => g | CutInside t p _ => XStart t :: p end.
Definition archive_events (d : archive_doc) : list xev :=
  a_lead d ++ XStart (a_root d) :: a_preface d ++ units_events (a_units d) ++ ending_events (a_ending d).
Definition ending_ok (d : ending) : Prop :=
  match d with
  | Whole _ trail => Forall outside trail
  | CutBetween g => Forall gap_event g
  | CutInside t p q => t_empty t = false /\ exists raw, unit_ok (Element t (p ++ q) raw)
  end.
(** With the root's end tag there must be a unit (without, the root is read as a unit itself). *)
Definition archive_ok (d : archive_doc) : Prop :=
  Forall outside (a_lead d) /\ unit_tag (a_root d) /\ t_empty (a_root d) = false /\ preface (a_preface d) /\
  Forall (fun p => unit_ok (fst p) /\ gap (snd p)) (a_units d) /\ ending_ok (a_ending d) /\
  match a_ending d with Whole _ _ => a_units d <> [] | _ => True end.
Definition whole (d : archive_doc) : bool := match a_ending d with Whole _ _ => true | _ => false end.
(** A document's units, for the reader. *)
Definition ending_units (d : ending) : list (list (bytes * bytes) * option ubody) :=
  match d with CutInside t _ _ => [(t_attrs t, None)] | _ => [] end.
Definition read_units (d : archive_doc) : list (list (bytes * bytes) * option ubody) :=
  map (fun p => (t_attrs (e_tag (fst p)), Some (unit_body (root_namespaces (a_root d)) (fst p)))) (a_units d) ++ ending_units (a_ending d).

(** A document that is one unit: what comes before the root, the root, whose content begins with [s_text]
    (no elements), then [s_rest]. *)
Record solo_doc := SoloDoc { s_lead : list xev; s_tag : tag; s_text : list xev; s_rest : list xev; s_end : bytes; s_trail : list xev }.
Definition solo_element (d : solo_doc) : element := Element (s_tag d) (s_text d ++ s_rest d) (s_end d).
Definition solo_events (d : solo_doc) : list xev := s_lead d ++ element_events (solo_element d) ++ s_trail d.
Definition leaf (e : xev) : Prop := match e with XText _ _ _ | XComment _ _ | XCData _ _ | XPI _ => True | _ => False end.
Definition solo_ok (d : solo_doc) : Prop :=
  Forall outside (s_lead d) /\ match s_lead d with [] => True | _ => match last (s_lead d) (XSkip []) with XSkip _ => False | _ => True end end /\
  unit_ok (solo_element d) /\ Forall leaf (s_text d) /\
  match s_rest d with [] => True | XStart t :: _ => t_name t <> txt "macro-list" | _ => False end /\
  Forall (fun e => match e with XStart t => t_name t <> txt "unit" | XEnd n _ => n <> txt "unit" | _ => True end) (s_rest d) /\
  Forall outside (s_trail d).
(** What is read: the lines are counted from the first element on. *)
Definition solo_body (d : solo_doc) : ubody :=
  let u := solo_element d in
  let h := length (tag_head (s_tag d)) in
  let c := length (t_raw (s_tag d)) + 1 in
  UBody (element_text u) (content_text (e_content u))
        (count_byte 10 (concat (map char_piece (s_rest d)))
         + match content_text (e_content u) with [] => 0 | t => if N.eqb (last t 0%N) 10 then 0 else 1 end)
        (c, c + length (text_of (e_content u)) + 1)
        (h, solo_insert_end (firstn c (element_text u))).
