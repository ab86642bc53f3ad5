(** The document of --cat (C65). *)
From Verif Require Import Base Text_Model Text_Spec Api_Model Writer_Model Writer_Spec Writer_Proofs8 Archive_Model Archive_Spec Archive_Proofs Archive_Proofs2 Archive_Proofs3 Archive_Proofs4 Reuse_Model Cat_Model Cat_Spec.
Local Open Scope N_scope.

Lemma inner_calls_raw : forall s, exists l, inner_calls s = map raw (s :: l) /\ concat (s :: l) = as_line s.
Proof.
  intros s. unfold inner_calls, as_line. destruct s as [|b s]; [exists []; split; reflexivity|].
  destruct (exists_last (l := b :: s)) as (t & z & E); [discriminate|]. rewrite E. rewrite last_last, rev_app_distr. cbn [rev app].
  destruct (N.eqb_spec z 10) as [->|NE].
  - exists []. split; [reflexivity|]. cbn. apply app_nil_r.
  - exists [[10]]. split; [reflexivity|]. cbn [concat]. destruct z as [|p]; [reflexivity|]. do 4 (try destruct p as [p|p|]); try reflexivity; now elim NE.
Qed.
Lemma later_calls : forall e m us xs, Forall2 has_content us xs ->
  exists l, cat_calls e m false us = Ok (map raw l) /\ concat l = concat xs.
Proof.
  intros e m us xs H. induction H as [|[s|] x us xs HC H (l & E & C)]; cbn [cat_calls].
  - exists []. split; reflexivity.
  - destruct HC as (c & I & ->). rewrite I. cbn [obind app]. rewrite E. cbn [obind].
    destruct (inner_calls_raw c) as (k & K & CK). exists ((c :: k) ++ l). rewrite K, map_app. split; [reflexivity|]. rewrite concat_app, CK, C. reflexivity.
  - cbn [has_content] in HC. subst x. exists l. split; [exact E|exact C].
Qed.
(** the start tag *)
Lemma attrs_app : forall l k, attrs (l ++ k) = attrs l ++ attrs k.
Proof. intros. apply flat_map_app. Qed.
Lemma hash_plain : forall h, Forall (fun c => (48 <= c <= 57) \/ (97 <= c <= 102)) h -> esc_attr h = h.
Proof.
  intros h H. induction H as [|c h HC H IH]; [reflexivity|]. unfold esc_attr in *. cbn [flat_map]. rewrite IH.
  repeat match goal with |- context [ (c =? ?k) ] => destruct (N.eqb_spec c k); [lia|] end. reflexivity.
Qed.
Lemma tag_unhashed : forall o g h, g_hash g = Some h -> g_attributes g = [] -> opt (so_options o) B_STORE_ENCODING = false -> stored_options (so_options o) = [] ->
  start_tag o g = start_tag o (unhashed g) ++ txt " hash=""" ++ esc_attr h ++ [34].
Proof.
  intros o g h H A SE SO. unfold start_tag. rewrite <- !app_assoc. do 2 f_equal.
  assert (T : tag_attrs o g = tag_attrs o (unhashed g) ++ [(txt "hash", h)]).
  { unfold tag_attrs. rewrite <- app_assoc. f_equal. unfold unit_attrs, unhashed. cbn [g_language g_revision g_url g_filename g_version g_timestamp g_hash g_encoding g_attributes].
    rewrite H, A, SE, SO. cbn [given pairs_of]. destruct (so_depth o =? 0); cbn [app]; rewrite !app_nil_r; unfold named; rewrite !filter_app, <- !app_assoc; reflexivity. }
  rewrite T, attrs_app. f_equal. unfold attrs. cbn [flat_map]. rewrite app_nil_r. reflexivity.
Qed.
(** the first unit without its content *)
Lemma empty_parsed : forall e s, parseable e s ->
  (forall h, u_hash (uo_settings (cs_unit s)) = Some h -> clean h) -> (exists h, u_hash (uo_settings (cs_unit s)) = Some h) ->
  exists c, empty_unit e s = Ok (ST_OK, c) /\ good_unit (cs_archive s, wu c, None) /\
    u_language (uo_settings (wu c)) = u_language (uo_settings (cs_unit s)) /\ u_filename (uo_settings (wu c)) = u_filename (uo_settings (cs_unit s)) /\
    u_version (uo_settings (wu c)) = u_version (uo_settings (cs_unit s)) /\ u_timestamp (uo_settings (wu c)) = u_timestamp (uo_settings (cs_unit s)) /\
    u_hash (uo_settings (wu c)) = u_hash (uo_settings (cs_unit s)) /\
    uo_attributes (wu c) = uo_attributes (cs_unit s) /\ uo_revision (wu c) = uo_revision (cs_unit s) /\ uo_url (wu c) = a_url (cs_archive s) /\ uo_derived (wu c) = cs_lang s.
Proof.
  intros e s (L & SU & RV & US & GR) HC (h & HH). unfold empty_unit, unit_parse.
  apply N.eqb_neq in L. rewrite L.
  cbn [wu wu_trans set_derived unit_clone uo_settings u_encoding u_hash].
  replace (match match u_encoding (uo_settings (cs_unit s)) with Some x => Some x | None => a_src_encoding (cs_archive s) end with
           | Some x => negb (supported e x) | None => false end) with false
    by (destruct (match u_encoding (uo_settings (cs_unit s)) with Some x => Some x | None => a_src_encoding (cs_archive s) end) eqn:A; [rewrite (SU _ eq_refl); reflexivity|reflexivity]).
  rewrite GR, HH. cbv zeta.
  set (asked := match u_encoding (uo_settings (cs_unit s)) with Some x => Some x | None => a_src_encoding (cs_archive s) end) in *.
  set (u := WUnitObj (set_derived (unit_clone (cs_unit s)) (cs_lang s)) None).
  assert (HC' : clean_opt (Some h)) by exact (HC h HH).
  destruct (parsed_good (extracted e) (cs_archive s) u (cs_lang s) (Some (settled e asked [])) (Some h) [] US HC' (Forall_nil _) RV) as (v & E & G).
  destruct (parse_ok (extracted e) (cs_archive s) u (cs_lang s) (Some (settled e asked [])) (Some h) [] US HC' (Forall_nil _)) as (v' & E' & _ & _ & _ & _ & SS & _).
  rewrite E in E'. injection E' as <-. cbn [flat_map] in E, G.
  exists v. split; [exact E|]. split; [exact G|].
  destruct SS as (_ & S & R & U & A & D).
  cbn [set_reader_result set_parse_start u wu set_derived unit_clone uo_settings uo_revision uo_url uo_attributes uo_derived u_language u_version u_timestamp u_hash u_filename] in *.
  rewrite S, R, U, A, D. cbn [u_language u_version u_timestamp u_hash u_filename]. repeat split.
Qed.
Lemma alone_opt : forall a k, k <> 14 -> k <> 15 -> opt (a_options (alone a)) k = opt (a_options a) k.
Proof.
  intros a k K14 K15. change (a_options (alone a)) with (N.ldiff (N.ldiff (a_options a) OPT_ARCHIVE) OPT_HASH). unfold opt. rewrite !N.ldiff_spec.
  unfold OPT_ARCHIVE, OPT_HASH. rewrite !N.pow2_bits_false by congruence. cbn [negb]. rewrite !andb_true_r. reflexivity.
Qed.
Lemma alone_solitary : forall a, is_archive (alone a) = false.
Proof.
  intros a. unfold is_archive, opt. change (a_options (alone a)) with (N.ldiff (N.ldiff (a_options a) OPT_ARCHIVE) OPT_HASH). rewrite !N.ldiff_spec.
  unfold OPT_ARCHIVE, B_ARCHIVE. rewrite N.pow2_bits_true. cbn [negb]. rewrite andb_false_r. reflexivity.
Qed.
Lemma alone_prolog : forall a, xml_declaration (alone a) = xml_declaration a /\ instruction (alone a) = instruction a.
Proof.
  intros a. split; [|reflexivity]. unfold xml_declaration. rewrite alone_opt by discriminate. reflexivity.
Qed.
Lemma own_text : forall e m s c, empty_unit e s = Ok (ST_OK, c) -> good_unit (cs_archive s, wu c, None) ->
  own_document e m s = Ok (Some (solitary_doc (alone (am_a m)) (cs_archive s, wu c, None))).
Proof.
  intros e m s c E G. unfold own_document. rewrite E. cbn [obind snd].
  set (m1 := AM (alone (am_a m)) (am_attributes m) IO_WRITE (Buffer 0 true []) None false 1 (Some 0%nat) (Some []) None [] None).
  destruct (solitary_document m1 [WriteUnit (Some (cs_archive s, wu c))] [(cs_archive s, wu c, None)] 0%nat true) as (rs & m' & R & _ & _ & D).
  - repeat split.
  - repeat constructor.
  - apply alone_solitary.
  - constructor; [exact G|constructor].
  - assert (EQ : arun (copy_of m) [Setting EnableSolitary; Setting DisableHash; OpenMemory true; WriteUnit (Some (cs_archive s, wu c)); Close] =
                 obind (arun m1 ([WriteUnit (Some (cs_archive s, wu c))] ++ [Close])) (fun x => Ok (RStatus ST_OK :: RStatus ST_OK :: RStatus ST_OK :: fst x, snd x))).
    { cbn [arun app]. change (astep (copy_of m) (Setting EnableSolitary)) with (Ok (RStatus ST_OK, AM (with_options (am_a m) (N.ldiff (a_options (am_a m)) OPT_ARCHIVE)) (am_attributes m) IO_INVALID NoBuffer None false 0 None None None [] None)).
      cbn [obind fst snd]. destruct (astep m1 (WriteUnit (Some (cs_archive s, wu c)))) as [[r2 m2]|] eqn:E2.
      - cbn. unfold m1, alone in E2. cbn in E2. cbn. rewrite E2. cbn [obind fst snd]. destruct (close m2) as [m3|]; reflexivity.
      - cbn. unfold m1, alone in E2. cbn in E2. cbn. rewrite E2. reflexivity. }
    rewrite EQ, R. cbn [obind snd]. destruct D as [U _]. rewrite U. do 2 f_equal. cbn [am_a m1].
    unfold solitary_doc, solitary_all. cbn [flat_map]. rewrite app_nil_r. destruct (a_pi (alone (am_a m))); reflexivity.
Qed.
