(** What libxml2 reports of a document, and what is to be read back of a unit that was written (C59). *)
From Verif Require Import Base Text_Model Text_Spec Api_Model Writer_Model Writer_Spec Archive_Model Archive_Spec Declared_Spec Root_Model Root_Spec Source_Model Source_Spec Whole_Spec Handoff_Model Handoff_Spec Sax_Model Sax_Spec.
Local Open Scope N_scope.

(** ** Reports of libxml2 *)
(** a start tag: name, namespace declarations and attributes as SAX2 has them, and its text *)
Definition is_tag (t : tag) (n : bytes) (l : list (bytes * bytes)) : Prop :=
  xml_tag (t_raw t) n l /\ plain_start n /\ ns_name n (t_prefix t) (t_name t) /\ t_ns t = sax_namespaces l /\ t_attrs t = sax_attributes l.
(** Character data comes in any pieces, each told before or after libxml2 advances over it; before only if it stands in the document as it is *)
Inductive pieces : bytes -> list xev -> Prop :=
| pc_nil : pieces [] []
| pc_cons plain raw text r es : raw <> [] -> xml_text raw text -> Forall (fun c => 32 <= c \/ c = 9 \/ c = 10) raw -> (plain = true -> raw = text) ->
    pieces r es -> pieces (raw ++ r) (XText plain raw text :: es).
(** but a few blanks between two tags come in one piece, and after libxml2 has advanced over them (parser.c, xmlParseCharData, INPUT_CHUNK) *)
Definition chardata (r : bytes) (es : list xev) : Prop :=
  r <> [] /\ pieces r es /\ (Forall (fun c => c = 32 \/ c = 10) r -> (length r <= 250)%nat -> es = [XText false r r]).
(** [reports st s l]: what is told of the text [s] inside the open elements [st], innermost first *)
Inductive reports : list bytes -> bytes -> list xev -> Prop :=
| rp_done : reports [] [] []
| rp_chars n st r es s l : chardata r es -> hd 0 s = 60 -> reports (n :: st) s l -> reports (n :: st) (r ++ s) (es ++ l)
| rp_start n st t q al s l : is_tag t q al -> t_empty t = false -> reports (q :: n :: st) s l -> reports (n :: st) (t_raw t ++ [62] ++ s) (XStart t :: l)
| rp_empty n st t q al s l : is_tag t q al -> t_empty t = true -> reports (n :: st) s l ->
    reports (n :: st) (t_raw t ++ txt "/>" ++ s) (XStart t :: XEnd (t_name t) (txt "/>") :: l)
| rp_end n p local st s l : ns_name n p local -> reports st s l -> reports (n :: st) (txt "</" ++ n ++ [62] ++ s) (XEnd local (txt "</" ++ n ++ [62]) :: l).
(** a document: what comes before ([lead]), the element [d], and the line end after it *)
Definition reported (lead d : bytes) (evs : list xev) : Prop :=
  exists before t q al l, Forall (fun e => outside e /\ xtext e <> []) before /\ text_of before = lead /\ is_tag t q al /\
    evs = before ++ XStart t :: l ++ [XSkip [10]] /\
    (t_empty t = false /\ (exists s, d = t_raw t ++ [62] ++ s /\ reports [q] s l) \/
     t_empty t = true /\ d = t_raw t ++ txt "/>" /\ l = [XEnd (t_name t) (txt "/>")]).

(** ** What is read back of a unit [v], written in archive [a] with the source [s]: its attributes and its body *)
Definition fresh_attrs : uattrs := UAttrs None None None None None None None [].
Definition read_back (a : archive) (v : uobj) (s : bytes) (r : list (bytes * bytes) * ubody) : Prop :=
  (exists ua, update_attributes fresh_attrs (fst r) = Ok ua /\
    ua_language ua = Some (match u_language (uo_settings v) with Some l => l | None => getLanguageString (uo_derived v) end) /\
    ua_filename ua = u_filename (uo_settings v) /\ ua_version ua = u_version (uo_settings v) /\ ua_timestamp ua = u_timestamp (uo_settings v) /\
    ua_hash ua = u_hash (uo_settings v) /\
    ua_revision ua = or_else (if N.testbit (a_options a) 14 then uo_revision v else None) (a_revision a) /\
    ua_url ua = (if N.testbit (a_options a) 14 then None else uo_url v) /\
    pairs_of (ua_attributes ua) = (if N.testbit (a_options a) 6 then [(txt "src-encoding", match u_encoding (uo_settings v) with None | Some [] => txt "UTF-8" | Some e => e end)] else []) ++ pairs_of (uo_attributes v)) /\
  b_src (snd r) = s /\ forall o, inner (with_body o (snd r)) = inner v.
(** the prefix of the cpp namespace is not empty *)
Definition cpp_named (a : archive) : Prop := Forall (fun n => ns_uri n = CPP_URI -> ns_prefix n <> []) (Archive_Spec.root_namespaces a).
(** for a unit that is the document: no element is called unit, and the first is no macro list *)
Fixpoint tree_names (t : tree) : list bytes := match t with TreeText _ => [] | TreeEmpty _ n _ => [n] | TreeElem _ n _ _ kids => n :: flat_map tree_names kids end.
Definition lone_names (ts : list tree) : Prop := ~ In (txt "unit") (flat_map tree_names ts) /\ hd [] (flat_map tree_names ts) <> txt "macro-list".
