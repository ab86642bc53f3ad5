(** C34: the namespaces declared on the tags of a unit, alone and in an archive. Vocabulary: Writer_Spec.v, Archive_Spec.v, Declared_Spec.v, Root_Spec.v ([produced]). *)
From Verif Require Import Base Text_Model Text_Spec Api_Model Api_Spec Writer_Model Writer_Spec Writer_Proofs10 Archive_Model Archive_Spec Root_Model Root_Spec Declared_Spec Archive_Declared.
Local Open Scope N_scope.

Theorem C34_tags : forall a al v c,
  root_tag a al = [60] ++ element_name (root_namespaces a) ++ attrs (root_attrs a al) /\
  unit_doc a 1 (a, v, c) = unit_xml ([60] ++ element_name (all_namespaces a v) ++ attrs (member_attrs a v)) (element_name (all_namespaces a v)) c.
Proof. intros a al v c. split; reflexivity. Qed.
Print Assumptions C34_tags.
(** a namespace the user registered stands on every unit parsed in the archive *)
Theorem C34_user_namespaces_declared : forall extract a al u lang encoding hash ts uri p,
  produced (a, al) -> uo_namespaces (wu u) = None ->
  usable a (parse_start a (wu u) lang encoding) -> clean_opt hash -> Forall good_tree ts ->
  prefix_from_uri a uri = Some p -> ~ In uri [SRC_URI; CPP_URI; ERROR_URI; POSITION_URI; OPENMP_URI] ->
  exists v, parse_unit extract a u lang encoding hash (flat_map tokens_of ts) = Ok (ST_OK, v) /\
    In (declaration p uri) (tag_attrs (unit_out a (wu v)) (start_args a (wu v) (uo_revision (wu v)))).
Proof. exact user_on_unit_list. Qed.
Print Assumptions C34_user_namespaces_declared.
(** In an archive document, each namespace an element of a unit uses is declared, with the prefix used, on the unit or on the root, and
    the user's namespaces are on the root. Missing: a prefix of the user's for OpenMP, and units parsed in another archive (both refuted in
    Properties_Archive.v). *)
Theorem C34_archive_namespaces_declared_partial : forall extract a al u lang encoding hash ts,
  produced (a, al) -> uo_namespaces (wu u) = None -> a_revision_number a = None ->
  usable a (parse_start a (wu u) lang encoding) -> clean_opt hash -> Forall good_tree ts -> N.testbit (a_options a) 14 = true ->
  exists v, parse_unit extract a u lang encoding hash (flat_map tokens_of ts) = Ok (ST_OK, v) /\
    (forall i uri, any_uses i ts -> standard_uri i = Some uri ->
       (uri = OPENMP_URI -> prefix_from_uri a uri = None \/ prefix_from_uri a uri = Some (txt "omp")) ->
       (uri = CPP_URI -> prefix_from_uri a uri = None \/ prefix_from_uri a uri = Some (txt "cpp") \/ N.testbit (a_options a) 13 = true) ->
       (uri = POSITION_URI -> N.testbit (a_options a) 2 = true) -> (uri = ERROR_URI -> N.testbit (a_options a) 11 = true) ->
       let d := declaration (prefix_of a (parse_start a (wu u) lang encoding) i) uri in
       In d (root_attrs a al) \/ In d (member_attrs a (wu v))) /\
    (forall uri p, prefix_from_uri a uri = Some p -> ~ In uri [SRC_URI; CPP_URI; ERROR_URI; POSITION_URI; OPENMP_URI] ->
       In (declaration p uri) (root_attrs a al)).
Proof. exact in_archive_declared_list. Qed.
Print Assumptions C34_archive_namespaces_declared_partial.
Example C34_declared_example : let a := run [RegisterNamespace (Some (txt "x")) (Some (txt "http://x")); RegisterNamespace (Some (txt "c")) (Some CPP_URI)] archive_create in
  produced (a, []) /\ usable a (parse_start a (wu (plain_unit (txt "a.c"))) 1 None) /\ N.testbit (a_options a) 14 = true /\ N.testbit (a_options a) 13 = true /\
  In (declaration (txt "x") (txt "http://x")) (root_attrs a []) /\
  exists v, parse_unit (fun s => s) a (plain_unit (txt "a.c")) 1 None None (flat_map tokens_of [TreeElem 1 (txt "include") [] [] []]) = Ok (ST_OK, v) /\
    member_attrs a (wu v) = [(txt "xmlns:c", CPP_URI); (txt "revision", txt "1.0.0"); (txt "language", txt "C"); (txt "filename", txt "a.c")].
Proof. exact declared_example. Qed.
