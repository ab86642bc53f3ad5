(** Property C35: a unit object answers for the source it was last given. Calls are [uop], histories [urun] (Reuse_Model.v). *)
From Verif Require Import Base Text_Model Text_Spec Api_Model Writer_Model Writer_Spec Writer_Proofs10 Reuse_Model Reuse_Spec Reuse_Proofs Reuse_Proofs2 Reuse_Hash Reuse_Examples.
Local Open Scope N_scope.

(** One parse, and any questions before and after it: every question is answered for it, whatever was asked before and however often. *)
Theorem C35_once : forall e t a u qs1 lang s qs2 r v, delivers e t -> clean_opt (a_url a) -> clean_opt (a_src_encoding a) -> usable a (wu u) -> unparsed (wu u) ->
  Forall asks qs1 -> Forall asks qs2 -> parse_of e a (u_encoding (uo_settings (wu u))) (UParse lang (Some s)) = Some (lang, s) ->
  urun e a u (qs1 ++ UParse lang (Some s) :: qs2) = Ok (r, v) ->
  let enc := settled e (asked_for a (u_encoding (uo_settings (wu u)))) s in
  let c := forest_content (prefix_of a (wu u)) (t lang enc s) in
  let doc := unit_xml (unit_tag a (wu v)) (unit_element a (wu v)) c in
  told (ustep e a v USrcml) = Ok (AText (Some doc)) /\
  told (ustep e a v UInner) = Ok (AText (Some (text_of c))) /\
  (url_safe a (wu v) -> told (ustep e a v UOuter) = Ok (AText (Some (unit_xml (outer_tag a (wu v)) (unit_element a (wu v)) c)))) /\
  told (ustep e a v ULoc) = Ok (ANumber (Z.of_nat (loc_written (extracted e doc)))) /\
  told (ustep e a v UHash) = Ok (AText (match u_hash (uo_settings (wu u)) with Some h => Some h | None => if opt (a_options a) 15 then Some (digest e s) else None end)) /\
  told (ustep e a v UEncoding) = Ok (AText (Some enc)).
Proof. exact once. Qed.
Print Assumptions C35_once.
(** Any history: srcml_unit_get_srcml is of the latest parse ([sn_trees]); the inner form is of the latest parse unless it was asked before
    ([sn_inner]: the first one given), the hash and the encoding are those of the first parse. Missing: what the title says, false below. *)
Theorem C35_history_partial : forall e t a u h r v, delivers e t -> clean_opt (a_url a) -> clean_opt (a_src_encoding a) -> usable a (wu u) -> unparsed (wu u) ->
  urun e a u h = Ok (r, v) ->
  let pre := prefix_of a (wu u) in let k := see_all e t a pre (start_seen (wu u)) h in
  ustep e a v USrcml = Ok (AText (option_map (fun ts => unit_xml (unit_tag a (wu v)) (unit_element a (wu v)) (forest_content pre ts)) (sn_trees k)), v) /\
  (exists v', ustep e a v UInner = Ok (AText (option_map (fun ts => match content pre ts with [] => [] | x => match sn_inner k with Some y => y | None => x end end) (sn_trees k)), v')) /\
  ustep e a v UHash = Ok (AText (sn_hash k), v) /\ ustep e a v UEncoding = Ok (AText (sn_encoding k), v).
Proof. exact reused. Qed.
Print Assumptions C35_history_partial.
(** A parse that is refused (no language, unknown encoding, no source) changes no answer. *)
Theorem C35_refused : forall e t a u h r v lang s st w, delivers e t -> clean_opt (a_url a) -> clean_opt (a_src_encoding a) -> usable a (wu u) -> unparsed (wu u) ->
  urun e a u h = Ok (r, v) -> ustep e a v (UParse lang s) = Ok (AStatus st, w) -> st <> ST_OK ->
  forall q, asks q -> told (ustep e a w q) = told (ustep e a v q).
Proof. exact failed. Qed.
Print Assumptions C35_refused.

(** After a parse, the line count is never counted again, and the outer form, once asked for, never made again. *)
Theorem C35_loc_kept : forall e t a u h r v lang s v', delivers e t -> clean_opt (a_url a) -> clean_opt (a_src_encoding a) -> usable a (wu u) -> unparsed (wu u) ->
  urun e a u h = Ok (r, v) -> ustep e a v (UParse lang s) = Ok (AStatus ST_OK, v') ->
  exists n, forall h2 r2 w, urun e a v' h2 = Ok (r2, w) -> ustep e a w ULoc = Ok (ANumber n, w).
Proof. exact loc_stuck. Qed.
Print Assumptions C35_loc_kept.
Theorem C35_outer_kept : forall e t a u h r v x v' h2 r2 w, delivers e t -> clean_opt (a_url a) -> clean_opt (a_src_encoding a) -> usable a (wu u) -> unparsed (wu u) ->
  urun e a u h = Ok (r, v) -> ustep e a v UOuter = Ok (AText (Some x), v') -> urun e a v' h2 = Ok (r2, w) -> ustep e a w UOuter = Ok (AText (Some x), w).
Proof. exact outer_stuck. Qed.
Print Assumptions C35_outer_kept.
(** Second parses seen by a caller, and what a new unit object says. *)
Theorem C35_inner_refuted : asks1 [parse1 (txt "a"); UInner; parse1 (txt "b"); UInner] = Ok [AStatus ST_OK; q "<expr>a</expr>"; AStatus ST_OK; q "<expr>a</expr>"] /\
  asks1 [parse1 (txt "b"); UInner] = Ok [AStatus ST_OK; q "<expr>b</expr>"].
Proof. exact stale_inner. Qed.
Theorem C35_outer_refuted : exists x, asks1 [parse1 (txt "a"); UOuter; parse1 (txt "b"); UOuter] = Ok [AStatus ST_OK; AText (Some x); AStatus ST_OK; AText (Some x)] /\
  asks1 [parse1 (txt "b"); UOuter] <> Ok [AStatus ST_OK; AText (Some x)].
Proof. exact stale_outer. Qed.
Theorem C35_loc_refuted : asks1 [parse1 (txt "a"); parse1 [98; 10; 99; 10]; ULoc] = Ok [AStatus ST_OK; AStatus ST_OK; ANumber 1] /\
  asks1 [parse1 [98; 10; 99; 10]; ULoc] = Ok [AStatus ST_OK; ANumber 2].
Proof. exact stale_loc. Qed.
Print Assumptions C35_outer_refuted.
Print Assumptions C35_loc_refuted.
Theorem C35_hash_refuted : asks1 [parse1 (txt "a"); parse1 (txt "b"); UHash] = Ok [AStatus ST_OK; AStatus ST_OK; q "sha-a"] /\
  asks1 [parse1 (txt "b"); UHash] = Ok [AStatus ST_OK; q "sha-b"].
Proof. exact stale_hash. Qed.
Theorem C35_encoding_refuted : asks1 [parse1 (txt "a"); parse1 [239; 187; 191; 98]; UEncoding] = Ok [AStatus ST_OK; AStatus ST_OK; q "ISO-8859-1"] /\
  asks1 [parse1 [239; 187; 191; 98]; UEncoding] = Ok [AStatus ST_OK; q "UTF-8"].
Proof. exact stale_encoding. Qed.
Theorem C35_namespace_refuted :
  asks1 [parse1 (txt "#d"); parse1 (txt "a"); USrcml] = Ok [AStatus ST_OK; AStatus ST_OK; q "<unit xmlns=""http://www.srcML.org/srcML/src"" xmlns:cpp=""http://www.srcML.org/srcML/cpp"" revision=""1.0.0"" language=""C"" filename=""a.c"" hash=""sha-#""><expr>a</expr></unit>"] /\
  asks1 [parse1 (txt "a"); USrcml] = Ok [AStatus ST_OK; q "<unit xmlns=""http://www.srcML.org/srcML/src"" revision=""1.0.0"" language=""C"" filename=""a.c"" hash=""sha-a""><expr>a</expr></unit>"].
Proof. exact stale_namespace. Qed.
Print Assumptions C35_inner_refuted.
Print Assumptions C35_hash_refuted.
Print Assumptions C35_encoding_refuted.
Print Assumptions C35_namespace_refuted.
(** after a parse the unit has the hash it had, or else that of the source if the archive asks for hashes, the encoding of the reader, the language it was parsed in and the
    URL of the archive; its name is kept *)
Theorem C35_hash : forall e t a u lang s v, delivers e t -> clean_opt (u_hash (uo_settings (wu u))) ->
  usable a (parse_start a (set_derived (wu u) lang) lang (Some (settled e (asked_encoding a u) s))) ->
  unit_parse e a u lang (Some s) = Ok (ST_OK, v) ->
  u_hash (uo_settings (wu v)) = match u_hash (uo_settings (wu u)) with Some h => Some h | None => if opt (a_options a) B_HASH then Some (digest e s) else None end /\
  u_encoding (uo_settings (wu v)) = Some (settled e (asked_encoding a u) s) /\ uo_derived (wu v) = lang /\ uo_url (wu v) = a_url a /\
  u_filename (uo_settings (wu v)) = u_filename (uo_settings (wu u)) /\ u_language (uo_settings (wu v)) = u_language (uo_settings (wu u)).
Proof. exact hash_left. Qed.
Print Assumptions C35_hash.
Example C35_hash_example : clean_opt (u_hash (uo_settings (wu (plain_unit (txt "a.c"))))) /\
  exists v, unit_parse env1 arch1 (plain_unit (txt "a.c")) 2 (Some (txt "b")) = Ok (ST_OK, v) /\ u_hash (uo_settings (wu v)) = Some (txt "sha-b").
Proof. split; [exact I|]. eexists. split; vm_compute; reflexivity. Qed.
Example C35_example : delivers env1 trees1 /\ usable arch1 (wu (plain_unit (txt "a.c"))) /\ unparsed (wu (plain_unit (txt "a.c"))) /\
  parse_of env1 arch1 None (parse1 [98; 10; 99; 10]) = Some (2, [98; 10; 99; 10]) /\
  asks1 [USrcml; UParse 0 (Some (txt "x")); parse1 [98; 10; 99; 10]; UInner; UInner; ULoc; parse1 (txt "#d"); USrcml] =
    Ok [AText None; AStatus ST_UNSET_LANGUAGE; AStatus ST_OK; AText (Some (txt "<expr>b" ++ [10] ++ txt "c" ++ [10] ++ txt "</expr>"));
        AText (Some (txt "<expr>b" ++ [10] ++ txt "c" ++ [10] ++ txt "</expr>")); ANumber 2; AStatus ST_OK;
        q "<unit xmlns=""http://www.srcML.org/srcML/src"" xmlns:cpp=""http://www.srcML.org/srcML/cpp"" revision=""1.0.0"" language=""C"" filename=""a.c"" hash=""sha-b""><cpp:directive>#d</cpp:directive></unit>"].
Proof. split; [exact env1_delivers|]. destruct fresh_usable as (A & B). split; [exact A|]. split; [exact B|]. split; vm_compute; reflexivity. Qed.
