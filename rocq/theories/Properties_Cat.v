(** The output of --cat (C65). *)
From Verif Require Import Base Text_Model Text_Spec Api_Model Writer_Model Writer_Spec Archive_Model Archive_Spec Archive_Proofs4 Reuse_Model Cat_Model Cat_Spec Cat_Proofs Cat_Proofs2 Cat_Examples.
Local Open Scope N_scope.

(** For any number of sources, some of them perhaps without a unit: if the hash is the last attribute of the first unit, what is written is one document with the start tag of
    the first unit without its hash, the content of all units in order, each as a line, and an end tag. *)
Theorem C65_document_partial : forall e m us xs s id memory, opened m id memory -> Forall2 has_content us xs -> first_of us = Some s -> parseable e s -> hash_last (am_a m) s ->
  exists c rs m', empty_unit e s = Ok (ST_OK, c) /\ cat e m us = Ok (rs, m') /\ Forall (fun r => r = RStatus ST_OK \/ r = RVoid) rs /\
    delivered m m' memory (cat_document (am_a m) (cs_archive s) (wu c) (concat xs)) /\
    u_language (uo_settings (wu c)) = u_language (uo_settings (cs_unit s)) /\ u_filename (uo_settings (wu c)) = u_filename (uo_settings (cs_unit s)) /\
    u_version (uo_settings (wu c)) = u_version (uo_settings (cs_unit s)) /\ u_timestamp (uo_settings (wu c)) = u_timestamp (uo_settings (cs_unit s)) /\
    uo_url (wu c) = a_url (cs_archive s) /\ uo_derived (wu c) = cs_lang s.
Proof. exact cat_doc. Qed.
Print Assumptions C65_document_partial.
(** But a single file is written without hash (without --hash), so that 51 bytes of its start tag are missing: *)
Theorem C65_single_refuted : text_out single [source (run single archive_create) None (txt "a.c") (txt "a<b")] =
  Some [decl_line ++ txt "<unit xmlns=""http://www.srcML.org/srcML/s><decl>a&lt;b</decl>" ++ [10] ++ txt "</unit>" ++ [10]].
Proof. exact single_text. Qed.
Print Assumptions C65_single_refuted.
(** with an option that is stored, such as --cpp-markup-if0, an attribute follows the hash, and part of the hash stays, without its quote; *)
Theorem C65_options_refuted : text_out if0 (two if0 (Some sha)) =
  Some [decl_line ++ txt "<unit xmlns=""http://www.srcML.org/srcML/src"" revision=""1.0.0"" language=""C"" filename=""a.c"" hash=""da39a3ee5e6b4b0d32><decl>a&lt;b</decl>" ++ [10] ++
        txt "<decl>c</decl>" ++ [10] ++ txt "</unit>" ++ [10]].
Proof. exact if0_text. Qed.
Print Assumptions C65_options_refuted.
(** with a prefix for the srcML namespace the end tag is not that of the start tag; *)
Theorem C65_prefix_refuted : text_out prefixed_ns (two prefixed_ns (Some sha)) =
  Some [decl_line ++ txt "<s:unit xmlns:s=""http://www.srcML.org/srcML/src"" revision=""1.0.0"" language=""C"" filename=""a.c""><s:decl>a&lt;b</s:decl>" ++ [10] ++
        txt "<s:decl>c</s:decl>" ++ [10] ++ txt "</unit>" ++ [10]].
Proof. exact prefix_text. Qed.
Print Assumptions C65_prefix_refuted.
(** a namespace that only a later source uses is not declared; *)
Theorem C65_namespace_refuted : text_out [] [source archive_create (Some sha) (txt "a.c") (txt "a<b"); Some (CSource archive_create cpp_unit 1)] =
  Some [head_line ++ txt "<decl>a&lt;b</decl>" ++ [10] ++ txt "<cpp:define>#define</cpp:define>" ++ [10] ++ txt "</unit>" ++ [10]].
Proof. exact cpp_text. Qed.
Print Assumptions C65_namespace_refuted.
(** and without any unit there is an end tag alone. *)
Theorem C65_no_unit_refuted : text_out [] [None; None] = Some [txt "</unit>" ++ [10]].
Proof. exact none_text. Qed.
Print Assumptions C65_no_unit_refuted.
Example C65_example :
  (exists m s, arun new_am [OpenOutput true true] = Ok ([ok], m) /\ opened m 0 false /\ first_of (two [] (Some sha)) = Some s /\ parseable e0 s /\ hash_last (am_a m) s /\
     Forall2 has_content (two [] (Some sha)) [txt "<decl>a&lt;b</decl>" ++ [10]; []; txt "<decl>c</decl>" ++ [10]]) /\
  text_out [] (two [] (Some sha)) = Some [head_line ++ txt "<decl>a&lt;b</decl>" ++ [10] ++ txt "<decl>c</decl>" ++ [10] ++ txt "</unit>" ++ [10]].
Proof. split; [exact two_hypotheses|exact two_text]. Qed.
