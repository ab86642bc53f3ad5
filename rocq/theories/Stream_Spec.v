(** Vocabulary for C27 and C39 on documents: what a read unit should hold. *)
From Verif Require Import Base Text_Model Text_Spec Api_Model Writer_Model Writer_Spec Handoff_Model Handoff_Spec Sax_Model Sax_Spec.

(** All line ends are in character data, as srcML writes them. *)
Definition countable (evs : list xev) : Prop :=
  Forall (fun e => match e with
    | XCData _ v => no_byte 10 v
    | XStart t => t_name t = txt "escape" -> forall n v a, t_attrs t = (n, v) :: a -> read_escape v <> 10%N
    | _ => True end) evs.
(** The body [b] read for the unit [u] of an archive with the root namespaces [ns]: the srcML is the
    element with these in its start tag, the source is its text, the lines are those of the source;
    srcml_unit_get_srcml_inner gives the content, and srcml_unit_get_srcml_outer the element, as they
    are in the document (unless there is an attribute url, which is removed). *)
Definition body_is (ns : bytes) (u : element) (b : ubody) : Prop :=
  b_srcml b = element_in ns u /\
  b_src b = content_text (e_content u) /\
  (countable (e_content u) -> line_count (b_src b) (b_loc b)) /\
  (forall o, inner (with_body o b) = Ok (text_of (e_content u))) /\
  (~ contains (tag_head (e_tag u) ++ ns ++ tag_tail (e_tag u)) (txt " url=") ->
   forall o, outer (with_body o b) = Ok (element_text u)).
(** The same for a document that is one unit: the srcML is the element, and the outer srcML lacks the first
    namespace declaration. *)
Definition solo_is (d : solo_doc) (b : ubody) : Prop :=
  let u := solo_element d in
  b_srcml b = element_text u /\
  b_src b = content_text (e_content u) /\
  (countable (e_content u) -> no_byte 10 (concat (map char_piece (s_text d))) -> line_count (b_src b) (b_loc b)) /\
  (forall o, inner (with_body o b) = Ok (text_of (e_content u))) /\
  (forall p v more, t_prefix (s_tag d) = None -> ~ contains (t_raw (s_tag d)) (txt " url=") ->
   tag_tail (s_tag d) = txt "xmlns" ++ p ++ [34%N] ++ v ++ [34%N; 32%N] ++ more -> no_byte 34 p -> no_byte 34 v ->
   forall o, outer (with_body o b) = Ok (txt "<unit " ++ more ++ element_rest u)).
(** Units with their attributes and bodies. *)
Definition with_bodies (us : list element) (bs : list ubody) : list (list (bytes * bytes) * option ubody) :=
  map (fun p => (t_attrs (e_tag (fst p)), Some (snd p))) (combine us bs).
