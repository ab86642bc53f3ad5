(** Model of one unit object parsed and asked repeatedly: srcml_unit_parse_* and the srcml_unit_get_srcml* functions with what they cache
    (srcml_unit.cpp:288-545). *)
From Verif Require Import Base Text_Model Api_Model Writer_Model.
Local Open Scope N_scope.

(** what a parse depends on besides the unit and the archive: which encodings iconv_open knows (506-514); the encoding the reader settles on
    from the one asked for (C03); the SHA-1 of the source (C02); the parser, as the tokens it delivers for a source in a language and an
    encoding (C08); extract_src (C45). *)
Record environment := Env {
  supported : bytes -> bool;
  settled : option bytes -> bytes -> bytes;
  digest : bytes -> bytes;
  grammar : N -> bytes -> bytes -> list token;
  extracted : bytes -> bytes }.
Definition B_HASH : N := 15.
(** calls on the unit; the source is [None] when it cannot be opened, the language 0 when none is found (C18) *)
Inductive uop := UParse (lang : N) (src : option bytes) | USrcml | UInner | UOuter | UHash | ULoc | UEncoding.
Inductive answer := AStatus (s : status) | AText (t : option bytes) | ANumber (z : Z).
Definition set_derived (u : uobj) (lang : N) : uobj :=
  UObj (uo_archive u) (uo_settings u) (uo_revision u) (uo_url u) (uo_attributes u) lang (uo_namespaces u)
       (uo_output u) (uo_translator u) (uo_read_header u) (uo_read_body u) (uo_srcml u) (uo_src u) (uo_raw u) (uo_fragment u)
       (uo_content u) (uo_insert u) (uo_loc u) (uo_error u).
Definition set_raw (u : uobj) (r : bytes) : uobj :=
  UObj (uo_archive u) (uo_settings u) (uo_revision u) (uo_url u) (uo_attributes u) (uo_derived u) (uo_namespaces u)
       (uo_output u) (uo_translator u) (uo_read_header u) (uo_read_body u) (uo_srcml u) (uo_src u) (Some r) (uo_fragment u)
       (uo_content u) (uo_insert u) (uo_loc u) (uo_error u).
Definition set_fragment (u : uobj) (r : bytes) : uobj :=
  UObj (uo_archive u) (uo_settings u) (uo_revision u) (uo_url u) (uo_attributes u) (uo_derived u) (uo_namespaces u)
       (uo_output u) (uo_translator u) (uo_read_header u) (uo_read_body u) (uo_srcml u) (uo_src u) (uo_raw u) (Some r)
       (uo_content u) (uo_insert u) (uo_loc u) (uo_error u).
(** 487-545 srcml_unit_parse_internal *)
Definition unit_parse (e : environment) (a : archive) (u : wunit) (lang : N) (src : option bytes) : outcome (status * wunit) :=
  if lang =? 0 then Ok (ST_UNSET_LANGUAGE, u) else
  let u := WUnitObj (set_derived (wu u) lang) (wu_trans u) in
  let asked := match u_encoding (uo_settings (wu u)) with Some x => Some x | None => a_src_encoding a end in
  if match asked with Some x => negb (supported e x) | None => false end then Ok (ST_INVALID_ARGUMENT, u) else
  match src with
  | None => Ok (ST_IO_ERROR, u)
  | Some s =>
      let encoding := settled e asked s in
      let hash := match u_hash (uo_settings (wu u)) with
                  | Some h => Some h
                  | None => if opt (a_options a) B_HASH then Some (digest e s) else None
                  end in
      parse_unit (extracted e) a u lang (Some encoding) hash (grammar e lang encoding s)
  end.
(** 437-465 *)
Definition get_inner (u : uobj) : outcome (bytes * uobj) :=
  if (snd (uo_content u) - fst (uo_content u) - 1 <=? 0)%Z then Ok ([], u)
  else match uo_raw u with
       | Some r => Ok (r, u)
       | None => obind (inner u) (fun r => Ok (r, set_raw u r))
       end.
(** 370-425; when it does not throw *)
Definition get_outer (u : uobj) : outcome (bytes * uobj) :=
  match uo_fragment u with
  | Some r => Ok (r, u)
  | None => obind (outer u) (fun r => Ok (r, set_fragment u r))
  end.
(** one call, for a unit that is not being read from an archive (read_header false) and an archive without revision number *)
Definition ustep (e : environment) (a : archive) (u : wunit) (c : uop) : outcome (answer * wunit) :=
  let body := uo_read_body (wu u) in
  match c with
  | UParse lang src => obind (unit_parse e a u lang src) (fun r => Ok (AStatus (fst r), snd r))
  | USrcml => Ok (AText (if body then Some (uo_srcml (wu u)) else None), u)
  | UInner => if body then obind (get_inner (wu u)) (fun r => Ok (AText (Some (fst r)), WUnitObj (snd r) (wu_trans u))) else Ok (AText None, u)
  | UOuter => if body then obind (get_outer (wu u)) (fun r => Ok (AText (Some (fst r)), WUnitObj (snd r) (wu_trans u))) else Ok (AText None, u)
  | UHash => Ok (AText (u_hash (uo_settings (wu u))), u)                 (* 288-295 *)
  | ULoc => Ok (ANumber (uo_loc (wu u)), u)                              (* 304-310 *)
  | UEncoding => Ok (AText (u_encoding (uo_settings (wu u))), u)         (* 192-199 *)
  end.
Fixpoint urun (e : environment) (a : archive) (u : wunit) (l : list uop) : outcome (list answer * wunit) :=
  match l with
  | [] => Ok ([], u)
  | c :: l => obind (ustep e a u c) (fun r => obind (urun e a (snd r) l) (fun q => Ok (fst r :: fst q, snd q)))
  end.
