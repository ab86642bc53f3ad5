(** Reading a document as XML, and the source a tree of elements shows. *)
From Verif Require Import Base Text_Model Text_Spec Api_Model Api_Spec Writer_Model Writer_Spec Root_Model Root_Spec Source_Model.
Local Open Scope N_scope.

(** ** XML with namespaces (https://www.w3.org/TR/xml, /TR/xml-names); comments, CDATA and processing instructions are left out *)
(** the declarations in scope, innermost first; none for a prefix means no namespace *)
Definition same_prefix (p q : option bytes) : bool :=
  match p, q with None, None => true | Some a, Some b => if bytes_dec a b then true else false | _, _ => false end.
Definition scope := list (option bytes * bytes).
Fixpoint lookup_ns (p : option bytes) (sc : scope) : option bytes :=
  match sc with
  | [] => None
  | (q, u) :: sc => if same_prefix q p then Some u else lookup_ns p sc
  end.
(** [ns_name n p local]: [n] is the local name, or a prefix, a colon and the local name *)
Definition ns_name (n : bytes) (p : option bytes) (local : bytes) : Prop :=
  ncname local /\ match p with None => n = local | Some q => ncname q /\ n = q ++ [58] ++ local end.
Definition start_event (local : bytes) (p : option bytes) (l : list (bytes * bytes)) (sc : scope) : xml_event :=
  XStart local (lookup_ns p (sax_namespaces l ++ sc)) (sax_attributes l).
(** not the start of a comment, CDATA section, declaration or processing instruction *)
Definition plain_start (n : bytes) : Prop := hd 0 n <> 33 /\ hd 0 n <> 63.
(** what follows inside the open elements, innermost first, each with its name and the declarations in scope *)
Inductive reads : list (bytes * scope) -> bytes -> list xml_event -> Prop :=
| rd_done : reads [] [] []
| rd_char e st c s l : 32 <= c \/ c = 9 \/ c = 10 -> c <> 60 -> c <> 38 -> reads (e :: st) s l -> reads (e :: st) (c :: s) (XChars [c] :: l)
| rd_ref e st c r s l : In (c, r) references -> reads (e :: st) s l -> reads (e :: st) (r ++ s) (XChars [c] :: l)
| rd_start m sc st t n p local al s l : xml_tag t n al -> plain_start n -> ns_name n p local ->
    reads ((n, sax_namespaces al ++ sc) :: (m, sc) :: st) s l ->
    reads ((m, sc) :: st) (t ++ [62] ++ s) (start_event local p al sc :: l)
| rd_empty m sc st t n p local al s l : xml_tag t n al -> plain_start n -> ns_name n p local ->
    reads ((m, sc) :: st) s l -> reads ((m, sc) :: st) (t ++ txt "/>" ++ s) (start_event local p al sc :: XEnd :: l)
| rd_end n sc st s l : reads st s l -> reads ((n, sc) :: st) (txt "</" ++ n ++ [62] ++ s) (XEnd :: l).
(** a document: one element *)
Definition xml_document (d : bytes) (l : list xml_event) : Prop :=
  exists t n p local al, xml_tag t n al /\ plain_start n /\ ns_name n p local /\
    ((exists s l', d = t ++ [62] ++ s /\ reads [(n, sax_namespaces al)] s l' /\ l = start_event local p al [] :: l') \/
     d = t ++ txt "/>" /\ l = [start_event local p al []; XEnd]).
(** pieces of text may be given together *)
Inductive joined : list xml_event -> list xml_event -> Prop :=
| j_nil : joined [] []
| j_same e l k : joined l k -> joined (e :: l) (e :: k)
| j_join a b l k : joined (XChars (a ++ b) :: l) k -> joined (XChars a :: XChars b :: l) k.

(** ** The source shown by the elements the parser delivers *)
(** a character escaped as the value 0x and two hexadecimal digits (C06) *)
Definition control_value (c : N) : bytes := [48; 120; 48 + c / 16; (if c mod 16 <? 10 then 48 + c mod 16 else 87 + c mod 16)].
Definition fine_attrs (al : list (bytes * bytes)) : Prop :=
  Forall (fun p => qname (fst p) /\ declares (fst p) = None /\ xml_chars (snd p)) al /\ NoDup (map fst al).
(** [shows ts s]: elements with names and attributes as XML has them, whose text is [s]; control characters are escape elements,
    and nothing else is. [pl] are the position attributes. *)
Inductive shows : list tree -> bytes -> Prop :=
| sh_nil : shows [] []
| sh_text s ts r : Forall (fun c => 32 <= c \/ c = 9 \/ c = 10) s -> shows ts r -> shows (TreeText s :: ts) (s ++ r)
| sh_control c ts r : c < 32 -> shows ts r -> shows (TreeEmpty 0 (txt "escape") [(txt "char", control_value c)] :: ts) (c :: r)
| sh_empty i n al ts r : ncname n -> plain_start n -> n <> txt "escape" -> fine_attrs al -> shows ts r -> shows (TreeEmpty i n al :: ts) r
| sh_elem i n al pl kids k ts r : ncname n -> plain_start n -> n <> txt "escape" -> fine_attrs (al ++ pl) -> shows kids k -> shows ts r ->
    shows (TreeElem i n al (attrs pl) kids :: ts) (k ++ r).
(** the prefixes the elements use are names *)
Definition prefix_name (p : bytes) : Prop := p = [] \/ ncname p /\ plain_start p.
(** settings of a unit that XML can carry: the namespaces with different prefixes, values without control characters, and the
    attributes of the unit with names of their own *)
Definition fine_unit (a : archive) (u : uobj) : Prop :=
  Forall (fun n => (ns_prefix n = [] \/ ncname (ns_prefix n) /\ plain_start (ns_prefix n) /\ ns_prefix n <> txt "xmlns" /\ ns_prefix n <> txt "xml") /\
                   ns_uri n <> [] /\ xml_chars (ns_uri n)) (so_ns (unit_out a u)) /\
  NoDup (map ns_prefix (so_ns (unit_out a u))) /\
  xml_chars_opt (a_language a) /\ xml_chars_opt (uo_revision u) /\ xml_chars_opt (uo_url u) /\
  (let s := uo_settings u in xml_chars_opt (u_language s) /\ xml_chars_opt (u_filename s) /\ xml_chars_opt (u_version s) /\
     xml_chars_opt (u_timestamp s) /\ xml_chars_opt (u_hash s) /\ xml_chars_opt (u_encoding s)) /\
  a_tabstop a < 2 ^ 64 /\ NoDup (map fst (pairs_of (uo_attributes u))) /\
  forall n v, In (n, v) (pairs_of (uo_attributes u)) -> ncname n /\ ~ In n (txt "src-encoding" :: reserved) /\ xml_chars v.
