(** A written archive, read again unit by unit (C59). *)
From Verif Require Import Base Text_Model Text_Spec Text_Proofs Text_Proofs3 Api_Model Api_Spec Api_Proofs Api_Proofs3 Writer_Model Writer_Spec Archive_Model Archive_Spec Root_Model Root_Spec Root_Proofs Root_Proofs2 Root_Proofs5 Source_Model Source_Spec Source_Proofs Source_Proofs2 Declared_Spec Whole_Spec Whole_Tags Whole_Reads Whole_Unit Whole_Archive Handoff_Model Handoff_Spec Sax_Model Sax_Spec Stream_Spec Sax_Proofs7 Back_Spec Back_Reads Back_Invert Back_Unit Back_Attrs.
Local Open Scope N_scope.

Definition nl2 : xev := XText false [10; 10] [10; 10].
(** what is known of the element [u] of the unit [x] *)
Definition element_of (a : archive) (v : uobj) (s : bytes) (u : element) : Prop :=
  unit_ok u /\ t_attrs (e_tag u) = sax_attributes (member_attrs a v) /\ content_text (e_content u) = s /\ inner v = Ok (text_of (e_content u)).
Lemma member_reported : forall extract a al x ts s m st rest evs, produced (a, al) -> a_revision_number a = None -> N.testbit (a_options a) 14 = true -> N.testbit (a_options a) 8 = true ->
  fine_archive a al -> cpp_named a -> parsed_in extract a x ts s -> reports (m :: st) (unit_doc a 1 x ++ rest) evs ->
  exists u l, evs = element_events u ++ l /\ reports (m :: st) rest l /\ element_of a (snd (fst x)) s u.
Proof.
  intros extract a al x ts s m st rest evs PR RN A D FA CN PI R. pose proof (produced_ns_ok _ PR) as K. cbn [fst] in K.
  destruct (parsed_facts extract a al x ts s RN (proj1 K) FA PI) as (X & C & SN & FG). set (v := snd (fst x)) in *.
  destruct (root_fine a al FA) as (RO & RG). assert (MO := out_fine a al 1 _ FA SN).
  assert (SRC0 := src_declared a al PR A D).
  destruct PI as (u & lang & encoding & hash & w & N0 & U & H & FU & SH & P & XW & GU).
  set (pre := fun i => prefix_at i (Archive_Spec.root_namespaces a)) in *.
  assert (P0 : pre 0%nat = prefix_at SRC (so_ns (tag_settings a 1 (all_namespaces a v)))) by (symmetry; apply same_at; exact SN).
  assert (R' : reports (m :: st) (unit_xml (start_tag (tag_settings a 1 (all_namespaces a v)) (in_archive_args a a v)) (prefixed (prefix_at SRC (so_ns (tag_settings a 1 (all_namespaces a v)))) (txt "unit"))
      (nonempty (flat_map (tree_xml pre) ts)) ++ rest) evs).
  { unfold unit_doc in R. rewrite X in R. cbn [fst snd] in R. rewrite C in R. exact R. }
  destruct (unit_reported (tag_settings a 1 (all_namespaces a v)) (in_archive_args a a v) pre ts s (sax_namespaces (Declared_Spec.root_attrs a al)) m st rest evs MO FG SH) as (e & l & EV & RR & UO & TA & CT & TX & _).
  - intros i _. apply fine_prefix. exact (fa_ns _ _ FA).
  - exact P0.
  - apply fine_prefix. exact (fa_ns _ _ FA).
  - apply (lookup_one _ _ _ _ _ _ MO FG RO RG); [exact SN|]. right. exact SRC0.
  - intros E. destruct (update_unit _ _ MO FG) as (ua & E1 & E2 & _). rewrite E in E1. cbn in E1. injection E1 as <-. discriminate E2.
  - apply Forall_forall. intros n I E. destruct (names_in _ _ n SN I) as (k & J & EP & EU). rewrite <- EP. unfold cpp_named in CN. rewrite Forall_forall in CN. apply (CN k J). congruence.
  - exact R'.
  - exists e, l. split; [exact EV|]. split; [exact RR|]. split; [exact UO|]. split; [exact TA|]. split; [exact CT|]. rewrite TX.
    destruct GU as ((b & I & S) & _). rewrite X in I, S. cbn [fst snd] in I, S. unfold selects_revision in S. rewrite RN, C in S. fold v in I. rewrite I. f_equal.
    destruct (flat_map (tree_xml pre) ts), b; try discriminate S; [reflexivity|]. injection S as S1 S2. congruence.
Qed.
Lemma macros_reported : forall ms m st rest evs, Forall (fun p => xml_chars (fst p) /\ xml_chars (snd p)) ms -> reports (m :: st) (flat_map macro_xml ms ++ rest) evs ->
  exists es l, evs = es ++ l /\ reports (m :: st) rest l /\ forall k, preface k -> preface (es ++ k).
Proof.
  induction ms as [|p ms IH]; intros m st rest evs F R; [exists [], evs; split; [reflexivity|]; split; [exact R|auto]|]. destruct (Forall_inv F) as (C1 & C2).
  set (A := [(txt "token", fst p); (txt "type", snd p)]).
  assert (NN : ncname (txt "macro-list")) by name_ok.
  assert (FA : fine_attrs A).
  { split; [constructor; [|constructor; [|constructor]]; cbn [fst snd]; (split; [assert (N : ncname (txt "token") /\ ncname (txt "type")) by (split; name_ok); first [exact (proj1 (proj1 N))|exact (proj1 (proj2 N))]|split; [reflexivity|assumption]])|].
    constructor; [intros [E|[]]; discriminate E|constructor; [intros []|constructor]]. }
  assert (NM : ns_name (txt "macro-list") None (txt "macro-list")) by (split; [exact NN|reflexivity]).
  assert (R' : reports (m :: st) (([60] ++ txt "macro-list" ++ attrs A) ++ txt "/>" ++ flat_map macro_xml ms ++ rest) evs).
  { cbn [flat_map] in R. unfold macro_xml at 1 in R. rewrite <- !app_assoc in R. rewrite <- !app_assoc. exact R. }
  destruct (tag_reported m st _ _ _ _ _ _ evs (fine_tag _ _ (proj1 NN) FA) NM (close2 _) R') as (g & IT & TR & TN & TP & [(s & l & E & _)|(s & l & E & TE & EV & RR)]); [discriminate E|].
  injection E as <-. destruct (IH m st rest l (Forall_inv_tail F) RR) as (es & l' & -> & R2 & PK).
  exists (XStart g :: XEnd (txt "macro-list") (txt "/>") :: es), l'. split; [exact EV|]. split; [exact R2|]. intros k K. cbn [app]. apply pre_macro; [exact TN|apply PK, K].
Qed.
Lemma unit_hd : forall a k x r, hd 0 (unit_doc a k x ++ r) = 60. Proof. intros a k [[ua u] [c|]] r; reflexivity. Qed.
Lemma units_reported : forall extract a al us tss m st tail evs, produced (a, al) -> a_revision_number a = None -> N.testbit (a_options a) 14 = true -> N.testbit (a_options a) 8 = true ->
  fine_archive a al -> cpp_named a -> Forall2 (fun x p => parsed_in extract a x (fst p) (snd p)) us tss -> hd 0 tail = 60 ->
  reports (m :: st) (flat_map (fun x => [10; 10] ++ unit_doc a 1 x) us ++ [10; 10] ++ tail) evs ->
  exists els l, evs = nl2 :: units_events (map (fun u => (u, [nl2])) els) ++ l /\ reports (m :: st) tail l /\
    Forall2 (fun xp u => parsed_in extract a (fst xp) (fst (snd xp)) (snd (snd xp)) /\ element_of a (snd (fst (fst xp))) (snd (snd xp)) u) (combine us tss) els.
Proof.
  intros extract a al us tss m st tail evs PR RN A D FA CN F HT. revert evs. induction F as [|x p us tss H F IH]; intros evs R.
  - destruct (blank_reported _ _ _ _ HT R) as (l & -> & R'). exists [], l. split; [reflexivity|]. split; [exact R'|constructor].
  - cbn [flat_map] in R. rewrite <- !app_assoc in R. destruct (blank_reported _ _ _ _ (unit_hd a 1 x _) R) as (l & -> & R').
    destruct (member_reported extract a al x _ _ m st _ l PR RN A D FA CN H R') as (u & l' & -> & R2 & EO). destruct (IH _ R2) as (els & l2 & -> & R3 & FE).
    exists (u :: els), l2. split; [|split; [exact R3|constructor; [split|]; assumption]]. unfold units_events. cbn [map concat fst snd]. unfold nl2 at 1. f_equal. rewrite <- !app_assoc. reflexivity.
Qed.

Lemma combine_facts : forall {X : Type} (P : X -> element -> Prop) (Q : element -> ubody -> Prop) (R : X -> list (bytes * bytes) * ubody -> Prop) xs els bs,
  (forall x u b, P x u -> Q u b -> R x (t_attrs (e_tag u), b)) -> Forall2 P xs els -> Forall2 Q els bs ->
  Forall2 R xs (map (fun p => (t_attrs (e_tag (fst p)), snd p)) (combine els bs)).
Proof. intros X P Q R xs els bs H F. revert bs. induction F as [|x u xs els HP F IH]; intros bs G; inversion G; subst; constructor; eauto. Qed.
Lemma back_ok : forall extract a al x ts s u ns b, a_revision_number a = None -> N.testbit (a_options a) 14 = true -> NoDup (map ns_uri (a_namespaces a)) -> fine_archive a al -> parsed_in extract a x ts s ->
  element_of a (snd (fst x)) s u -> body_is ns u b -> read_back a (snd (fst x)) s (t_attrs (e_tag u), b).
Proof.
  intros extract a al x ts s u ns b RN A ND FA PI (UO & TA & CT & IN) (B1 & B2 & B3 & B4 & B5).
  destruct (parsed_facts extract a al x ts s RN ND FA PI) as (X & C & SN & FG). set (v := snd (fst x)) in *. assert (MO := out_fine a al 1 _ FA SN).
  destruct (update_unit _ _ MO FG) as (ua & E & E1 & E2 & E3 & E4 & E5 & E6 & E7 & E8). unfold read_back. cbn [fst snd]. split; [|split; [rewrite B2; exact CT|intros o; rewrite B4, IN; reflexivity]].
  exists ua. rewrite TA. split; [exact E|]. unfold in_archive_args in *. cbn [g_language g_revision g_url g_filename g_version g_timestamp g_hash g_encoding g_attributes] in *.
  unfold Archive_Spec.is_archive, opt in *. change (N.testbit (a_options a) B_ARCHIVE) with (N.testbit (a_options a) 14) in *. rewrite A, RN in *.
  change (N.testbit (so_options (tag_settings a 1 (all_namespaces a v))) B_STORE_ENCODING) with (N.testbit (a_options a) 6) in E8.
  assert (RA : forall o : option bytes, rev_attr None o = o) by (intros [o|]; reflexivity). rewrite !RA in *.
  repeat (split; [assumption|]). exact E8.
Qed.
Lemma pairs_length : forall {X Y : Type} (P : X -> Y -> Prop) l k, Forall2 P l k -> length l = length k.
Proof. intros X Y P l k F. induction F; [reflexivity|]. cbn. f_equal. assumption. Qed.
(** the reports are those of an archive, as C27 and C39 have it *)
Lemma archive_form : forall extract a al us tss d evs,
  produced (a, al) -> fine_archive a al -> N.testbit (a_options a) 14 = true -> N.testbit (a_options a) 8 = true -> a_revision_number a = None -> cpp_named a ->
  Forall2 (fun x p => parsed_in extract a x (fst p) (snd p)) us tss -> us <> [] ->
  Archive_Spec.archive_doc a al us = xml_declaration a ++ instruction a ++ d ++ [10] -> reported (instruction a) d evs ->
  exists doc els, evs = archive_events doc /\ archive_ok doc /\ whole doc = true /\ map fst (a_units doc) = els /\ length (a_units doc) = length us /\ t_ns (a_root doc) = sax_namespaces (Declared_Spec.root_attrs a al) /\ t_attrs (a_root doc) = sax_attributes (Declared_Spec.root_attrs a al) /\ Forall2 (fun xp u => parsed_in extract a (fst xp) (fst (snd xp)) (snd (snd xp)) /\ element_of a (snd (fst (fst xp))) (snd (snd xp)) u) (combine us tss) els.
Proof.
  intros extract a al us tss d evs PR FA A D RN CN F NE DD RP. pose proof (produced_ns_ok _ PR) as K. cbn [fst] in K.
  destruct (root_fine a al FA) as (RO & RG). assert (SRC0 := src_declared a al PR A D). destruct (tag_ok _ _ RO RG) as (TF & TD).
  set (L0 := Declared_Spec.root_attrs a al) in *. set (p0 := prefix_at SRC (Archive_Spec.root_namespaces a)) in *.
  destruct (prefixed_ns p0 (txt "unit")) as (Q & E & NN); [apply fine_prefix; exact (fa_ns _ _ FA)|name_ok|split; discriminate|]. set (n := prefixed p0 (txt "unit")) in *.
  assert (T : xml_tag (root_tag a al) n L0).
  { exists (attrs L0). split; [reflexivity|]. split; [exact Q|]. apply attrs_read; assumption. }
  assert (DE : d = root_tag a al ++ [62] ++ flat_map macro_xml (pairs_of (a_macros a)) ++ flat_map (fun x => [10; 10] ++ unit_doc a 1 x) us ++ [10; 10] ++ txt "</" ++ n ++ [62] ++ []).
  { unfold Archive_Spec.archive_doc in DD. apply app_inv_head, app_inv_head, app_inv_tail in DD. rewrite <- DD. destruct us as [|x us]; [contradiction|].
    cbn [unit_xml]. change (element_name (Archive_Spec.root_namespaces a)) with n. change (txt ">") with [62]. unfold macro_list. rewrite app_nil_r, <- !app_assoc. reflexivity. }
  destruct RP as (before & t & q & al' & l & OB0 & TB & IT & EV & [(TE & s0 & ED & R)|(TE & ED & _)]).
  2: { exfalso. rewrite DE in ED. destruct IT as (XT & _). destruct (tag_ends _ _ _ _ _ _ _ _ T XT (close1 _) (close2 []) ED) as (_ & _ & _ & EX). discriminate EX. }
  assert (OB : Forall outside before) by (eapply Forall_impl; [|exact OB0]; intros e (O & _); exact O). rewrite DE in ED.
  pose proof IT as (XT & PS & NT & NS & AT). destruct (tag_ends _ _ _ _ _ _ _ _ T XT (close1 _) (close1 _) ED) as (TR & <- & <- & EX). injection EX as <-.
  destruct (macros_reported _ _ _ _ _ (fa_macros _ _ FA) R) as (es & l1 & -> & R1 & PK).
  destruct (units_reported extract a al us tss n [] (txt "</" ++ n ++ [62] ++ []) l1 PR RN A D FA CN F eq_refl R1) as (els & l2 & -> & R2 & FE).
  destruct (end_reported _ _ _ _ R2) as (p' & local' & l3 & NN' & -> & R3). destruct (ns_name_unique _ _ _ _ _ NN NN') as (_ & <-).
  assert (l3 = []) as -> by (inversion R3; reflexivity).
  set (doc := ArchiveDoc before t (es ++ [nl2]) (map (fun u => (u, [nl2])) els) (Whole (txt "</" ++ n ++ [62]) [XSkip [10]])).
  assert (EE : evs = archive_events doc).
  { rewrite EV. unfold archive_events, doc. cbn [a_lead a_root a_preface a_units a_ending ending_events]. rewrite <- !app_assoc. cbn [app]. rewrite <- !app_assoc. reflexivity. }
  assert (BE : blank_event nl2) by (split; [reflexivity|]; split; [discriminate|]; repeat constructor; right; right; left; reflexivity).
  assert (LN : L0 <> []) by (intros Z; rewrite Z in SRC0; exact SRC0).
  assert (TNM : t_name t = txt "unit") by (exact (proj2 (ns_name_unique _ _ _ _ _ NT NN))).
  assert (OK : archive_ok doc).
  { unfold doc. split; [exact OB|]. split; [split; [exact TNM|]; split; [exact (tag_split _ _ _ IT LN)|exact (cpp_prefixed_tag _ _ _ _ RO RG CN IT)]|]. split; [exact TE|].
    split; [apply PK; apply pre_gap; [exact BE|constructor]|]. cbn [a_units a_ending ending_ok]. split.
    - apply Forall_map. apply Forall_forall. intros u I. cbn [fst snd]. split; [|right; exists [], nl2; split; [reflexivity|]; split; [constructor|exact BE]].
      clear -FE I. revert I. induction FE as [|x y xs ys (_ & H & _) F2 IH]; intros I; [contradiction|]. destruct I as [<-|I]; [exact H|apply IH, I].
    - split; [constructor; [exact Logic.I|constructor]|]. destruct els as [|u els]; [|discriminate]. exfalso. destruct F; [contradiction|]. cbn [combine] in FE. inversion FE. }
  exists doc, els. split; [exact EE|]. split; [exact OK|]. split; [reflexivity|]. split; [unfold doc; cbn [a_units]; rewrite map_map; cbn [fst]; apply map_id|].
  split; [|split; [exact NS|split; [exact AT|exact FE]]]. unfold doc. cbn [a_units]. rewrite map_length. apply pairs_length in FE. rewrite <- FE, combine_length. apply pairs_length in F. lia.
Qed.
(** Reading always goes on until it is over, within a bound; then each call got what it is to get. *)
Theorem archive_read_back : forall extract a al us tss d evs err ops ls s,
  produced (a, al) -> fine_archive a al -> N.testbit (a_options a) 14 = true -> N.testbit (a_options a) 8 = true -> a_revision_number a = None -> cpp_named a ->
  Forall2 (fun x p => parsed_in extract a x (fst p) (snd p)) us tss -> us <> [] ->
  Archive_Spec.archive_doc a al us = xml_declaration a ++ instruction a ++ d ++ [10] -> reported (instruction a) d evs ->
  calm ls -> steps sax ls (open (parse evs err) ops) = Some s ->
  (cl s = CGone \/ exists l s', (l = Caller \/ l = Parser) /\ step sax l s = Some s') /\ (length ls <= 12 * length ops + 8 * length us + 30)%nat /\
  (cl s = CGone -> exists rs, Forall2 (fun xp r => read_back a (snd (fst (fst xp))) (snd (snd xp)) r) (combine us tss) rs /\
    results s = Handoff_Spec.reads (map (fun r => (fst r, Some (snd r))) rs) ops).
Proof.
  intros extract a al us tss d evs err ops ls s PR FA A D RN CN F NE DD RP CA ST. pose proof (produced_ns_ok _ PR) as K. cbn [fst] in K.
  destruct (archive_form extract a al us tss d evs PR FA A D RN CN F NE DD RP) as (doc & els & EE & OK & W & EL & LU & _ & _ & FE).
  rewrite EE in ST. split; [exact (archive_not_stuck doc err ops ls s OK W CA ST)|]. split.
  { rewrite <- LU. apply (archive_bounded doc err ops ls s OK); [rewrite W; discriminate|exact CA|exact ST]. }
  intros GO. destruct (archive_read doc err ops ls s OK W CA ST GO) as (bs & FB & RS).
  rewrite EL in FB, RS. exists (map (fun p => (t_attrs (e_tag (fst p)), snd p)) (combine els bs)). split.
  - eapply combine_facts; [|exact FE|exact FB]. intros xp u b (PI & EO) BI. exact (back_ok extract a al _ _ _ u _ b RN A (proj1 K) FA PI EO BI).
  - rewrite RS. unfold with_bodies. rewrite map_map. reflexivity.
Qed.
