(** The document of --cat, and when it is not one (C65). *)
From Verif Require Import Base Text_Model Text_Spec Api_Model Writer_Model Writer_Spec Writer_Proofs8 Archive_Model Archive_Spec Archive_Proofs Archive_Proofs2 Archive_Proofs3 Archive_Proofs4 Reuse_Model Cat_Model Cat_Spec Cat_Proofs.
Local Open Scope N_scope.

Lemma cut_tail : forall {A} (p t : list A) n, length t = n -> firstn (length (p ++ t) - n) (p ++ t) = p.
Proof. intros A p t n <-. rewrite app_length, Nat.add_sub, firstn_app, Nat.sub_diag, firstn_all. cbn. apply app_nil_r. Qed.
Lemma write_cut : forall b n m, (n <= length b)%nat -> astep m (WriteString (Some b) (Z.of_nat (length b) - Z.of_nat n)) = astep m (raw (firstn (length b - n) b)).
Proof.
  intros b n m L. cbn [astep raw]. rewrite (proj2 (Z.ltb_ge _ 0)) by lia. rewrite (proj2 (Z.ltb_ge (Z.of_nat (length b)) _)) by lia.
  rewrite (proj2 (Z.ltb_ge _ 0)) by lia. rewrite Z.ltb_irrefl. rewrite Nat2Z.id.
  replace (Z.to_nat (Z.of_nat (length b) - Z.of_nat n)) with (length b - n)%nat by lia. rewrite firstn_all. reflexivity.
Qed.
Lemma hash_clean : forall h, Forall (fun c => (48 <= c <= 57) \/ (97 <= c <= 102)) h -> clean h.
Proof. intros h H. unfold clean, no_byte. eapply Forall_impl; [|exact H]. cbv beta. intros c C. lia. Qed.
(** what the calls for all sources are *)
Lemma first_calls : forall e m us xs s c h, Forall2 has_content us xs -> first_of us = Some s -> empty_unit e s = Ok (ST_OK, c) -> good_unit (cs_archive s, wu c, None) ->
  hash_last (am_a m) s -> u_hash (uo_settings (cs_unit s)) = Some h -> u_hash (uo_settings (wu c)) = Some h -> uo_attributes (wu c) = [] -> a_revision_number (cs_archive s) = None ->
  exists b l, cat_calls e m true us = Ok (WriteString (Some b) (Z.of_nat (length b) - 51) :: map raw ([62] :: l)) /\ (51 <= length b)%nat /\ concat l = concat xs /\
    firstn (length b - 51) b = xml_declaration (am_a m) ++ instruction (am_a m) ++ start_tag (tag_settings (alone (am_a m)) 0 (all_namespaces (cs_archive s) (wu c))) (unhashed (in_archive_args (alone (am_a m)) (cs_archive s) (wu c))).
Proof.
  intros e m us xs s c h H. revert s. induction H as [|[s0|] x us xs HC H IH]; intros s FO E G HL HH HHC AT RV; [discriminate FO| |].
  - injection FO as ->. cbn [cat_calls]. rewrite (own_text e m s c E G). cbn [obind]. destruct HC as (k & I & ->). rewrite I. cbn [obind].
    destruct (later_calls e m us xs H) as (l & EL & CL). rewrite EL. cbn [obind start_calls].
    destruct (inner_calls_raw k) as (j & J & CJ).
    eexists _, ((k :: j) ++ l). rewrite J. split; [cbn [app map]; rewrite map_app; reflexivity|].
    destruct HL as ((h' & HH' & LH & HX) & _ & SE & O1 & O2 & O3). rewrite HH in HH'. injection HH' as <-.
    destruct (alone_prolog (am_a m)) as [XD IN]. unfold solitary_doc. rewrite XD, IN. unfold unit_doc. cbn [fst snd unit_xml].
    rewrite (tag_unhashed _ _ h).
    2: { cbn [in_archive_args g_hash]. rewrite HHC, RV. reflexivity. }
    2: exact AT.
    2: { cbn [tag_settings so_options]. rewrite alone_opt by discriminate. exact SE. }
    2: { cbn [tag_settings so_options]. unfold stored_options. rewrite !alone_opt by discriminate. rewrite O1, O2, O3. reflexivity. }
    rewrite (hash_plain h HX).
    set (T := start_tag _ _).
    replace (xml_declaration (am_a m) ++ instruction (am_a m) ++ ((T ++ txt " hash=""" ++ h ++ [34]) ++ txt "/>") ++ [10])
      with ((xml_declaration (am_a m) ++ instruction (am_a m) ++ T) ++ (txt " hash=""" ++ h ++ [34] ++ txt "/>" ++ [10])) by (rewrite <- !app_assoc; reflexivity).
    assert (L51 : length (txt " hash=""" ++ h ++ [34] ++ txt "/>" ++ [10]) = 51%nat) by (rewrite !app_length, LH; reflexivity).
    split; [rewrite app_length, L51; lia|]. split; [rewrite concat_app, CJ, CL; reflexivity|]. apply cut_tail. exact L51.
  - cbn [has_content] in HC. subst x. cbn [cat_calls first_of concat app] in *. apply (IH s); assumption.
Qed.
Lemma cat_doc : forall e m us xs s id memory, opened m id memory -> Forall2 has_content us xs -> first_of us = Some s -> parseable e s -> hash_last (am_a m) s ->
  exists c rs m', empty_unit e s = Ok (ST_OK, c) /\ cat e m us = Ok (rs, m') /\ Forall (fun r => r = RStatus ST_OK \/ r = RVoid) rs /\
    delivered m m' memory (cat_document (am_a m) (cs_archive s) (wu c) (concat xs)) /\
    u_language (uo_settings (wu c)) = u_language (uo_settings (cs_unit s)) /\ u_filename (uo_settings (wu c)) = u_filename (uo_settings (cs_unit s)) /\
    u_version (uo_settings (wu c)) = u_version (uo_settings (cs_unit s)) /\ u_timestamp (uo_settings (wu c)) = u_timestamp (uo_settings (cs_unit s)) /\
    uo_url (wu c) = a_url (cs_archive s) /\ uo_derived (wu c) = cs_lang s.
Proof.
  intros e m us xs s id memory OP H FO PA HL. pose proof HL as ((h & HH & LH & HX) & AT & _).
  destruct (empty_parsed e s PA) as (c & E & G & C1 & C2 & C3 & C4 & C5 & C6 & _ & C8 & C9).
  { intros h' HH'. rewrite HH in HH'. injection HH' as <-. apply hash_clean. exact HX. }
  { exists h. exact HH. }
  destruct (first_calls e m us xs s c h H FO E G HL HH) as (b & l & CC & LB & CL & CUT).
  { rewrite C5. exact HH. } { rewrite C6. exact AT. } { apply PA. }
  unfold cat. rewrite CC. cbn [obind].
  destruct (raw_document m (firstn (length b - 51) b) ([62] :: l ++ [txt "</unit>" ++ [10]]) id memory OP) as (m' & R & D).
  exists c, (oks (S (length ([62] :: l ++ [txt "</unit>" ++ [10]]))) ++ [RVoid]), m'.
  split; [exact E|]. split.
  - etransitivity; [|exact R]. cbn [app map arun]. change 51%Z with (Z.of_nat 51). rewrite write_cut by exact LB.
    destruct (astep m (raw (firstn (length b - 51) b))) as [[r1 m1]|]; [|reflexivity]. cbn [obind fst snd].
    rewrite !map_app, <- !app_assoc. reflexivity.
  - split; [apply Forall_app; split; [apply Forall_forall; intros r I; apply repeat_spec in I; left; exact I|repeat constructor; right; reflexivity]|].
    split; [|repeat (split; [assumption|]); assumption].
    replace (cat_document (am_a m) (cs_archive s) (wu c) (concat xs)) with (concat (firstn (length b - 51) b :: [62] :: l ++ [txt "</unit>" ++ [10]])); [exact D|].
    cbn [concat]. rewrite concat_app, CL, CUT. unfold cat_document, unit_xml. cbn [concat]. rewrite <- !app_assoc. reflexivity.
Qed.
