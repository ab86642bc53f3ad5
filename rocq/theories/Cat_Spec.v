(** Specification of --cat (C65). *)
From Verif Require Import Base Text_Model Text_Spec Api_Model Writer_Model Writer_Spec Archive_Model Archive_Spec Reuse_Model Cat_Model.
Local Open Scope N_scope.

(** a text as a line: a newline is added unless it is empty or ends with one *)
Definition as_line (s : bytes) : bytes := match rev s with [] => [] | 10 :: _ => s | _ => s ++ [10] end.
(** what stands between the tags: the content of each unit as a line, in order *)
Definition has_content (u : option csource) (x : bytes) : Prop := match u with Some s => exists c, inner (cs_unit s) = Ok c /\ x = as_line c | None => x = [] end.
(** the settings with which the start tag is written: those of the output archive, as a document of one unit without hash *)
Definition alone (a : archive) : archive := run [EnableSolitary; DisableHash] a.
(** the arguments of a start tag without the hash *)
Definition unhashed (g : tag_args) : tag_args :=
  TagArgs (g_language g) (g_revision g) (g_url g) (g_filename g) (g_version g) (g_timestamp g) None (g_encoding g) (g_attributes g) (g_macros g).
(** the document: the start tag of unit [c], the content, the end tag *)
Definition cat_document (a ua : archive) (c : uobj) (body : bytes) : bytes :=
  xml_declaration a ++ instruction a ++
  unit_xml (start_tag (tag_settings (alone a) 0 (all_namespaces ua c)) (unhashed (in_archive_args (alone a) ua c))) (txt "unit") (Some body) ++ [10].
(** the last attribute of the first unit's start tag is its hash, a SHA-1 in hexadecimal *)
Definition hash_last (a : archive) (s : csource) : Prop :=
  (exists h, u_hash (uo_settings (cs_unit s)) = Some h /\ length h = 40%nat /\ Forall (fun c => (48 <= c <= 57) \/ (97 <= c <= 102)) h) /\
  uo_attributes (cs_unit s) = [] /\ opt (a_options a) B_STORE_ENCODING = false /\
  opt (a_options a) B_CPP_TEXT_ELSE = false /\ opt (a_options a) B_CPP_MARKUP_IF0 = false /\ opt (a_options a) B_LINE = false.
(** the clone of the first unit can be parsed: it has a language, its encoding is known, its strings are C strings (C21) *)
Definition parseable (e : environment) (s : csource) : Prop :=
  let asked := match u_encoding (uo_settings (cs_unit s)) with Some x => Some x | None => a_src_encoding (cs_archive s) end in
  cs_lang s <> 0 /\ (forall x, asked = Some x -> supported e x = true) /\
  a_revision_number (cs_archive s) = None /\
  usable (cs_archive s) (parse_start (cs_archive s) (set_derived (unit_clone (cs_unit s)) (cs_lang s)) (cs_lang s) (Some (settled e asked []))) /\
  (forall lang enc, grammar e lang enc [] = []) (* the parser has no tokens for an empty text *).
Fixpoint first_of (us : list (option csource)) : option csource := match us with [] => None | None :: us => first_of us | Some s :: _ => Some s end.
