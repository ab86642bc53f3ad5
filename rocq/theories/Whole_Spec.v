(** What reading a whole document as XML gives (C58). XML is read by [xml_document] (Source_Spec.v). *)
From Verif Require Import Base Text_Model Text_Spec Api_Model Api_Spec Writer_Model Writer_Spec Archive_Model Archive_Spec Declared_Spec Root_Model Root_Spec Source_Model Source_Spec.
Local Open Scope N_scope.

(** the elements the parser delivers, as an XML parser tells them; [uri i]: the namespace of those with namespace number [i];
    [pl]: position attributes *)
Inductive told (uri : nat -> option bytes) : list tree -> list xml_event -> Prop :=
| td_nil : told uri [] []
| td_text s ts l : told uri ts l -> told uri (TreeText s :: ts) (map (fun c => XChars [c]) s ++ l)
| td_empty i n al ts l : told uri ts l -> told uri (TreeEmpty i n al :: ts) (XStart n (uri i) (sax_attributes al) :: XEnd :: l)
| td_elem i n al pl kids k ts l : told uri kids k -> told uri ts l ->
    told uri (TreeElem i n al (attrs pl) kids :: ts) (XStart n (uri i) (sax_attributes (al ++ pl)) :: k ++ XEnd :: l).

(** ** Documents *)
(** settings of an archive that XML can carry: namespaces with different prefixes, values without control characters, attributes and macros *)
Record fine_archive (a : archive) (al : list bytes) : Prop := FineArchive {
  fa_ns : Forall (fun n => (ns_prefix n = [] \/ ncname (ns_prefix n) /\ plain_start (ns_prefix n) /\ ns_prefix n <> txt "xmlns" /\ ns_prefix n <> txt "xml") /\
                           ns_uri n <> [] /\ xml_chars (ns_uri n)) (root_namespaces a);
  fa_prefixes : NoDup (map ns_prefix (root_namespaces a));
  fa_values : xml_chars_opt (a_revision a) /\ xml_chars_opt (a_url a) /\ xml_chars_opt (a_version a) /\ a_tabstop a < 2 ^ 64;
  fa_attributes : NoDup (map fst (pairs_of al)) /\ forall n v, In (n, v) (pairs_of al) -> ncname n /\ ~ In n (txt "src-encoding" :: reserved) /\ xml_chars v;
  fa_macros : Forall (fun p => xml_chars (fst p) /\ xml_chars (snd p)) (pairs_of (a_macros a)) }.
(** [x]: a unit of the archive [a], parsed; the parser delivered [ts], whose text is [s]; its namespaces were not changed before *)
Definition parsed_in (extract : bytes -> bytes) (a : archive) (x : archive * uobj * option bytes) (ts : list tree) (s : bytes) : Prop :=
  exists u lang encoding hash v, uo_namespaces (wu u) = None /\ usable a (parse_start a (wu u) lang encoding) /\ clean_opt hash /\
    fine_unit a (parse_end a (wu u) lang encoding hash) /\ shows ts s /\
    parse_unit extract a u lang encoding hash (flat_map tokens_of ts) = Ok (ST_OK, v) /\ fst x = (a, wu v) /\ good_unit x.
(** the namespaces srcML gives elements: the numbers are those of the parser (C34), the conditions are those under which a prefix is declared *)
Definition right_uri (a : archive) (ts : list tree) (uri : nat -> option bytes) : Prop :=
  forall i u, any_uses i ts -> standard_uri i = Some u ->
    (u = OPENMP_URI -> prefix_from_uri a u = None \/ prefix_from_uri a u = Some (txt "omp")) ->
    (u = CPP_URI -> prefix_from_uri a u = None \/ prefix_from_uri a u = Some (txt "cpp") \/ N.testbit (a_options a) 13 = true) ->
    (u = POSITION_URI -> N.testbit (a_options a) 2 = true) -> (u = ERROR_URI -> N.testbit (a_options a) 11 = true) -> uri i = Some u.
(** the events of a unit element with attributes [al]: the elements the parser delivered, in their namespaces, and its source is [s] *)
Definition unit_is (a : archive) (al : list (bytes * bytes)) (ts : list tree) (s : bytes) (e : list xml_event) : Prop :=
  exists b uri, e = XStart (txt "unit") (Some SRC_URI) (sax_attributes al) :: b ++ [XEnd] /\ told uri ts b /\ right_uri a ts uri /\ extract_src e = Ok s.
(** the attributes of a unit [v] that is the document (Declared_Spec.member_attrs: of one in an archive) *)
Definition lone_attrs (a : archive) (v : uobj) : list (bytes * bytes) := tag_attrs (tag_settings a 0 (all_namespaces a v)) (in_archive_args a a v).
Definition blank_line : list xml_event := [XChars [10]; XChars [10]].
(** the macros of an archive; without a prefix they are in the default namespace *)
Definition macro_events (uri : option bytes) (a : archive) : list xml_event :=
  flat_map (fun p => [XStart (txt "macro-list") uri [(txt "token", fst p); (txt "type", snd p)]; XEnd]) (pairs_of (a_macros a)).
