(** Properties C11-C18, C33: settings of archives and units. *)
From Verif Require Import Base Text_Model Text_Spec Api_Model Api_Spec Api_Proofs Api_Proofs2 Api_Proofs3 Api_Instruction Api_Proofs4.
Local Open Scope N_scope.

(** ** C11: for every history of calls on a new archive and every file name *)
Theorem C11_last_registration : forall h ext f, extension_of f ext ->
  check_extension (run h archive_create) f = Ok (or_else (latest (registers ext) h) (builtin ext)).
Proof. exact extension_history. Qed.
Print Assumptions C11_last_registration.
Theorem C11_no_extension : forall h f, (forall ext, ~ extension_of f ext) -> check_extension (run h archive_create) f = Ok None.
Proof. exact no_extension. Qed.
Print Assumptions C11_no_extension.
Theorem C11_extension_unique : forall f e1 e2, extension_of f e1 -> extension_of f e2 -> e1 = e2.
Proof. exact extension_unique. Qed.
Print Assumptions C11_extension_unique.
Theorem C11_accepted : forall a e l, fst (step a (RegisterExtension (Some e) (Some l))) =
  if in_dec bytes_dec l languages then ST_OK else ST_INVALID_INPUT.
Proof. exact register_status. Qed.
Print Assumptions C11_accepted.
(** a rejected call, registration or other, changes nothing at all *)
Theorem C11_rejected : forall a c, fst (step a c) <> ST_OK -> snd (step a c) = a.
Proof. exact rejected_unchanged. Qed.
Print Assumptions C11_rejected.
Example C11_example :
  let h := [RegisterExtension (Some (txt "h")) (Some (txt "C++")); RegisterExtension (Some (txt "h")) (Some (txt "Cobol"))] in
  check_extension (run h archive_create) (txt "dir/a.h.gz") = Ok (Some (txt "C++")) /\
  check_extension archive_create (txt "dir/a.h.gz") = Ok (Some (txt "C")) /\
  latest (registers (txt "h")) h = Some (txt "C++").
Proof. repeat split; vm_compute; reflexivity. Qed.
(** the extension is looked for in the whole path, so a dot in a directory name counts *)
Example C11_directory : extension_of (txt "a.c/Makefile") (txt "c/Makefile").
Proof. exact directory_dot. Qed.

(** ** C12 *)
Theorem C12_public_options : forall h i, i < 7 ->
  N.testbit (get_options (run h archive_create)) i = dflt false (latest (bit_effect i) h).
Proof. exact options_history. Qed.
Print Assumptions C12_public_options.
Theorem C12_range : forall a, get_options a < 128.
Proof. exact options_range. Qed.
Print Assumptions C12_range.
(** Missing from the full property: histories with srcml_archive_set_options, for which it is false (below). *)
Theorem C12_internal_settings_partial : forall h, Forall (fun c => ~ is_set_options c) h ->
  is_solitary (run h archive_create) = dflt false (latest solitary_effect h) /\
  has_hash (run h archive_create) = dflt true (latest hash_effect h).
Proof. exact internal_history. Qed.
Print Assumptions C12_internal_settings_partial.
(** setting no option makes the archive solitary and switches hashing off *)
Theorem C12_set_options_refuted : is_solitary (run [SetOptions 0] archive_create) = true /\ is_solitary archive_create = false /\
  has_hash (run [SetOptions 0] archive_create) = false /\ has_hash archive_create = true.
Proof. exact set_options_resets. Qed.
Print Assumptions C12_set_options_refuted.
Example C12_example : get_options (run [EnableOption 12; DisableOption 4; EnableSolitary] archive_create) = 8 /\
  is_solitary (run [EnableOption 12; DisableOption 4; EnableSolitary] archive_create) = true.
Proof. split; vm_compute; reflexivity. Qed.

(** ** C13: [ps] is the list of (token, type). Missing: positions from 2^63 on, where pos * 2 wraps. *)
Theorem C13_macro_list_partial : forall h, let a := run h archive_create in
  exists ps, NoDup (map fst ps) /\
    map fst ps = first_seen [] (map fst (macro_regs h)) /\
    (forall t, last_value t ps = last_value t (macro_regs h)) /\
    macro_size a = length ps /\
    (forall i, i < 2 ^ 63 -> macro_token a i = Ok (option_map fst (nth_error ps (N.to_nat i))) /\
                             macro_type a i = Ok (option_map snd (nth_error ps (N.to_nat i)))) /\
    (forall t, macro_token_type a t = Ok (last_value t (macro_regs h))).
Proof. exact macros_ok. Qed.
Print Assumptions C13_macro_list_partial.
Theorem C13_accepted : forall h t y, fst (step (run h archive_create) (RegisterMacro (Some t) (Some y))) = ST_OK.
Proof. exact macro_status. Qed.
Print Assumptions C13_accepted.
Theorem C13_wrap_refuted :
  macro_token (run [RegisterMacro (Some (txt "M")) (Some (txt "src:macro"))] archive_create) (2 ^ 63) = Ok (Some (txt "M")) /\
  macro_size (run [RegisterMacro (Some (txt "M")) (Some (txt "src:macro"))] archive_create) = 1%nat.
Proof. exact macro_wrap. Qed.
Print Assumptions C13_wrap_refuted.
Example C13_example : let a := run [RegisterMacro (Some (txt "A")) (Some (txt "1")); RegisterMacro (Some (txt "B")) (Some (txt "2"));
    RegisterMacro (Some (txt "A")) (Some (txt "3"))] archive_create in
  macro_size a = 2%nat /\ macro_token a 1 = Ok (Some (txt "B")) /\ macro_token_type a (txt "A") = Ok (Some (txt "3")) /\
  macro_token a 2 = Ok None /\ macro_token_type a (txt "Z") = Ok None.
Proof. repeat split; vm_compute; reflexivity. Qed.

(** ** C14 *)
Theorem C14_each_uri_once : forall h,
  uris (run h archive_create) = SRC_URI :: first_seen [SRC_URI] (map fst (ns_regs h)) /\ NoDup (uris (run h archive_create)).
Proof. exact uris_ok. Qed.
Print Assumptions C14_each_uri_once.
Theorem C14_latest_prefix : forall h u, prefix_from_uri (run h archive_create) u =
  or_else (last_value u (ns_regs h)) (if bytes_dec u SRC_URI then Some [] else None).
Proof. exact prefix_ok. Qed.
Print Assumptions C14_latest_prefix.
Theorem C14_position : forall a i, namespace_uri a i = Ok (nth_error (uris a) i).
Proof. exact namespace_uri_ok. Qed.
Print Assumptions C14_position.
Theorem C14_positions_stable : forall h1 h2,
  exists more, uris (run (h1 ++ h2) archive_create) = uris (run h1 archive_create) ++ more.
Proof. exact positions_stable. Qed.
Print Assumptions C14_positions_stable.
(** Missing: the position just past the end, which is read out of range (below). *)
Theorem C14_prefix_position_partial : forall h i, let a := run h archive_create in i <> length (uris a) ->
  namespace_prefix a i = Ok match nth_error (uris a) i with Some u => prefix_from_uri a u | None => None end.
Proof. exact namespace_prefix_ok. Qed.
Print Assumptions C14_prefix_position_partial.
Theorem C14_prefix_end_refuted : forall h,
  namespace_prefix (run h archive_create) (length (uris (run h archive_create))) = UB.
Proof. exact namespace_prefix_end. Qed.
Print Assumptions C14_prefix_end_refuted.
(** lookup by prefix gives a URI that has that prefix, and null only if there is none, whichever entry is found *)
Theorem C14_by_prefix : forall pick h p, finder pick -> let a := run h archive_create in
  match uri_from_prefix pick a p with
  | Some u => prefix_from_uri a u = Some p
  | None => forall u, prefix_from_uri a u <> Some p
  end.
Proof. exact uri_from_prefix_ok. Qed.
Print Assumptions C14_by_prefix.
Theorem C14_feature_options : forall a p,
  N.testbit (get_options (snd (step a (RegisterNamespace (Some p) (Some CPP_URI))))) 3 = true /\
  N.testbit (get_options (snd (step a (RegisterNamespace (Some p) (Some POSITION_URI))))) 2 = true /\
  N.testbit (a_options (snd (step a (RegisterNamespace (Some p) (Some ERROR_URI))))) 11 = true.
Proof. exact feature_options. Qed.
Print Assumptions C14_feature_options.
Example C14_example : let a := run [RegisterNamespace (Some (txt "a")) (Some (txt "u")); RegisterNamespace (Some (txt "s")) (Some SRC_URI);
    RegisterNamespace (Some (txt "b")) (Some (txt "u"))] archive_create in
  uris a = [SRC_URI; txt "u"] /\ prefix_from_uri a (txt "u") = Some (txt "b") /\ prefix_from_uri a SRC_URI = Some (txt "s") /\
  namespace_prefix a 1 = Ok (Some (txt "b")) /\ finder (fun l => match l with n :: _ => Some n | [] => None end).
Proof. repeat split; try (vm_compute; reflexivity). intros [|n l]; [reflexivity|left; reflexivity]. Qed.

(** ** C15 *)
(** no URI lost, none duplicated, order kept *)
Theorem C15_uris : forall o l, map ns_uri (merge l o) = map ns_uri l ++ first_seen (map ns_uri l) (map ns_uri o).
Proof. exact merge_uris. Qed.
Print Assumptions C15_uris.
Theorem C15_no_duplicates : forall l o, NoDup (map ns_uri l) -> NoDup (map ns_uri (merge l o)).
Proof. exact merge_nodup. Qed.
Print Assumptions C15_no_duplicates.
Theorem C15_flags_only_added : forall l o u n, find_uri l u = Some n ->
  exists m, find_uri (merge l o) u = Some m /\ N.lor (ns_flags n) (ns_flags m) = ns_flags m.
Proof. exact merge_flags. Qed.
Print Assumptions C15_flags_only_added.
(** an entry of a predefined URI with a prefix other than the predefined one is left exactly as it is *)
Theorem C15_user_prefix_kept : forall l o u d n, find_uri default_namespaces u = Some d -> find_uri l u = Some n ->
  ns_prefix n <> ns_prefix d -> find_uri (merge l o) u = Some n.
Proof. exact user_prefix_kept. Qed.
Print Assumptions C15_user_prefix_kept.
(** and wherever either side has such a prefix, the result does *)
Theorem C15_user_prefix_taken : forall l o u d n, find_uri default_namespaces u = Some d ->
  In n o -> ns_uri n = u -> ns_prefix n <> ns_prefix d ->
  exists m, find_uri (merge l o) u = Some m /\ ns_prefix m <> ns_prefix d.
Proof. exact user_prefix_taken. Qed.
Print Assumptions C15_user_prefix_taken.
(** any other URI gets the last prefix given and all flags given *)
Theorem C15_other_uris : forall l o u, find_uri default_namespaces u = None -> In u (map ns_uri o) ->
  exists m, find_uri (merge l o) u = Some m /\ ns_prefix m = last (map ns_prefix (filter (fun n => beqb (ns_uri n) u) o)) [] /\
    (forall n, In n o -> ns_uri n = u -> N.lor (ns_flags n) (ns_flags m) = ns_flags m).
Proof. exact other_prefix. Qed.
Print Assumptions C15_other_uris.
Theorem C15_idempotent : forall l o, NoDup (map ns_uri l) -> merge (merge l o) o = merge l o.
Proof. exact merge_idem. Qed.
Print Assumptions C15_idempotent.
(** observation: flags offered for a URI whose prefix the user changed are dropped *)
Theorem C15_flags_dropped : exists l o u n m, NoDup (map ns_uri l) /\ find_uri o u = Some n /\ find_uri (merge l o) u = Some m /\
  N.lor (ns_flags n) (ns_flags m) <> ns_flags m.
Proof. exact flags_dropped. Qed.
Print Assumptions C15_flags_dropped.
Example C15_example : merge [Ns (txt "c") CPP_URI 8; Ns (txt "pos") POSITION_URI 18] [Ns (txt "cpp") CPP_URI 20; Ns (txt "p") POSITION_URI 4; Ns (txt "x") (txt "u") 8]
  = [Ns (txt "c") CPP_URI 8; Ns (txt "p") POSITION_URI 22; Ns (txt "x") (txt "u") 8].
Proof. vm_compute. reflexivity. Qed.

(** ** C16 *)
Theorem C16_same : forall u v, is_srcml_namespace u v = true <-> exists s, suffix_of u s /\ suffix_of v s.
Proof. exact same_iff. Qed.
Print Assumptions C16_same.
Theorem C16_equivalence : (forall u, is_srcml_namespace u u = true) /\
  (forall u v, is_srcml_namespace u v = true -> is_srcml_namespace v u = true) /\
  (forall u v w, is_srcml_namespace u v = true -> is_srcml_namespace v w = true -> is_srcml_namespace u w = true).
Proof. exact same_equivalence. Qed.
Print Assumptions C16_equivalence.
Theorem C16_normalize : forall u, uri_normalize (uri_normalize u) = uri_normalize u /\ is_srcml_namespace u (uri_normalize u) = true.
Proof. exact normalize_ok. Qed.
Print Assumptions C16_normalize.
Theorem C16_canonical : forall p q s t, (p = URI_NEW \/ p = URI_OLD) -> (q = URI_NEW \/ q = URI_OLD) ->
  (is_srcml_namespace (p ++ s) (q ++ t) = true <-> uri_normalize (p ++ s) = uri_normalize (q ++ t)).
Proof. exact normalize_canonical. Qed.
Print Assumptions C16_canonical.
Example C16_example : is_srcml_namespace (txt "http://www.sdml.info/srcML/src") SRC_URI = true /\
  is_srcml_namespace CPP_URI SRC_URI = false /\ is_srcml_namespace (txt "srcML/src") SRC_URI = true.
Proof. repeat split; vm_compute; reflexivity. Qed.

(** ** C17 *)
Theorem C17_archive_attributes : forall k h a, get_attr (run h a) k = match latest (sets k) h with Some v => v | None => get_attr a k end.
Proof. exact attr_history. Qed.
Print Assumptions C17_archive_attributes.
Theorem C17_tabstop : forall h, a_tabstop (run h archive_create) = dflt 8 (latest sets_tabstop h).
Proof. exact tabstop_history. Qed.
Print Assumptions C17_tabstop.
Theorem C17_srcdiff_revision : forall h, get_revision (run h archive_create) = dflt 2 (latest sets_revision h).
Proof. exact revision_history. Qed.
Print Assumptions C17_srcdiff_revision.
Theorem C17_archive_rejected : forall a c, fst (step a c) <> ST_OK -> snd (step a c) = a.
Proof. exact rejected_unchanged. Qed.
Print Assumptions C17_archive_rejected.
Theorem C17_null_archive : forall c, call_on None c = (ST_INVALID_ARGUMENT, None).
Proof. exact null_call. Qed.
Print Assumptions C17_null_archive.
Theorem C17_unit_attributes : forall k h u, uget (urun h u) k = match latest (usets k) h with Some v => v | None => uget u k end.
Proof. exact uattr_history. Qed.
Print Assumptions C17_unit_attributes.
Theorem C17_unit_eol : forall h u, u_eol (urun h u) = match latest sets_eol h with Some v => v | None => u_eol u end.
Proof. exact ueol_history. Qed.
Print Assumptions C17_unit_eol.
Theorem C17_unit_rejected : forall u c, fst (ustep u c) <> ST_OK -> snd (ustep u c) = u.
Proof. exact urejected. Qed.
Print Assumptions C17_unit_rejected.
(** the processing instruction reads back as set, without a change of any other setting, and no other call changes it *)
Theorem C17_processing_instruction : (forall a t d, exists a', set_processing_instruction a (Some t) (Some d) = Ok (ST_OK, a') /\ pi_target a' = Some t /\ pi_data a' = Some d /\
    (forall k, get_attr a' k = get_attr a k) /\ a_options a' = a_options a /\ a_tabstop a' = a_tabstop a /\ a_namespaces a' = a_namespaces a /\
    a_extensions a' = a_extensions a /\ a_macros a' = a_macros a /\ get_revision a' = get_revision a) /\
  forall a c, pi_target (snd (step a c)) = pi_target a /\ pi_data (snd (step a c)) = pi_data a.
Proof. exact (conj pi_set pi_kept). Qed.
Print Assumptions C17_processing_instruction.
(** a null processing instruction is not rejected but dereferenced *)
Theorem C17_null_pi_refuted : forall a d, set_processing_instruction a None d = UB.
Proof. exact pi_null. Qed.
Print Assumptions C17_null_pi_refuted.
Example C17_example :
  let a := run [SetAttr AUrl (Some (txt "u")); SetTabstop 4; SetAttr AVersion (Some (txt "v")); SetAttr AUrl None; SetRevision 1; SetRevision 9] archive_create in
  get_attr a AUrl = None /\ get_attr a AVersion = Some (txt "v") /\ a_tabstop a = 4 /\ get_revision a = 1 /\
  fst (ustep unit_create (USetEol 4)) = ST_INVALID_ARGUMENT.
Proof. repeat split; vm_compute; reflexivity. Qed.

(** ** C18: [asked] is the unit's language, else the archive's; the file name is the argument of the parse call *)
Theorem C18_precedence : forall u h f, let a := run h archive_create in
  let wanted := or_else (uget u ULanguage) (get_attr a ALanguage) in
  (forall l, wanted = Some l -> In l languages -> decide_language u a f = Ok (ST_OK, getLanguage l)) /\
  ((forall l, wanted = Some l -> ~ In l languages) -> f = None -> decide_language u a f = Ok (ST_UNSET_LANGUAGE, 0)) /\
  (forall p, (forall l, wanted = Some l -> ~ In l languages) -> f = Some p -> (forall e, ~ extension_of p e) ->
     decide_language u a f = Ok (ST_UNSET_LANGUAGE, 0)) /\
  (forall p e, (forall l, wanted = Some l -> ~ In l languages) -> f = Some p -> extension_of p e ->
     decide_language u a f =
     Ok match or_else (latest (registers e) h) (builtin e) with
        | Some l => (ST_OK, getLanguage l)
        | None => (ST_UNSET_LANGUAGE, 0)
        end).
Proof. exact decide_ok. Qed.
Print Assumptions C18_precedence.
(** the numbers stand for the languages *)
Theorem C18_number : forall l, In l languages -> getLanguage l <> 0 /\ getLanguageString (getLanguage l) = l.
Proof. exact known_number. Qed.
Print Assumptions C18_number.
(** an unknown language of the unit hides a known one of the archive *)
Theorem C18_unknown_hides : exists u a, uget u ULanguage = Some (txt "Cobol") /\ get_attr a ALanguage = Some (txt "Java") /\
  decide_language u a None = Ok (ST_UNSET_LANGUAGE, 0).
Proof. exact unit_unknown_no_fallback. Qed.
Print Assumptions C18_unknown_hides.
Example C18_example : let a := run [SetAttr ALanguage (Some (txt "Java")); RegisterExtension (Some (txt "q")) (Some (txt "C#"))] archive_create in
  decide_language (urun [USet ULanguage (Some (txt "C++"))] unit_create) a (Some (txt "x.c")) = Ok (ST_OK, 2) /\
  decide_language unit_create a (Some (txt "x.c")) = Ok (ST_OK, 4) /\
  decide_language unit_create (run [RegisterExtension (Some (txt "q")) (Some (txt "C#"))] archive_create) (Some (txt "x.q")) = Ok (ST_OK, 8).
Proof. repeat split; vm_compute; reflexivity. Qed.

(** ** C33: for every reachable state of any number of archives and units *)
Theorem C33_archive_clone : forall before after h o, let w := wrun before empty_world in w_archives w h = Some o ->
  let h' := w_next w in let w1 := wstep w (WCloneArchive h) in
  (exists o', w_archives w1 h' = Some o' /\ h' <> h /\ closed o' /\ o_settings o' = o_settings o /\
     o_attributes o' = o_attributes o /\ o_transformations o' = o_transformations o) /\
  w_archives w1 h = Some o /\
  (exists x y, w_archives (wrun after w1) h = Some x /\ w_archives (wrun after w1) h' = Some y /\
     o_settings x = run (calls_on h after) (o_settings o) /\ o_settings y = run (calls_on h' after) (o_settings o)).
Proof. exact clone_archive_ok. Qed.
Print Assumptions C33_archive_clone.
Theorem C33_unit_clone : forall before after h u, let w := wrun before empty_world in w_units w h = Some u ->
  let h' := w_next w in let w1 := wstep w (WCloneUnit h) in
  (exists u', w_units w1 h' = Some u' /\ h' <> h /\ unread u' /\ uo_settings u' = uo_settings u /\ uo_archive u' = uo_archive u /\
     uo_revision u' = uo_revision u /\ uo_url u' = uo_url u /\ uo_attributes u' = uo_attributes u /\ uo_namespaces u' = uo_namespaces u) /\
  w_units w1 h = Some u /\
  (exists x y, w_units (wrun after w1) h = Some x /\ w_units (wrun after w1) h' = Some y /\
     uo_settings x = urun (ucalls_on h after) (uo_settings u) /\ uo_settings y = urun (ucalls_on h' after) (uo_settings u)).
Proof. exact clone_unit_ok. Qed.
Print Assumptions C33_unit_clone.
Example C33_example : let w := wrun [WCreate; WArchive 0 (SetTabstop 4); WCloneArchive 0; WArchive 0 (SetTabstop 2)] empty_world in
  option_map (fun o => a_tabstop (o_settings o)) (w_archives w 0%nat) = Some 2 /\
  option_map (fun o => a_tabstop (o_settings o)) (w_archives w 1%nat) = Some 4.
Proof. split; vm_compute; reflexivity. Qed.
