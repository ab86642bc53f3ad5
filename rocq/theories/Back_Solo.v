(** A unit written as the document, read again (C59). *)
From Verif Require Import Base Text_Model Text_Spec Text_Proofs Text_Proofs3 Api_Model Api_Spec Api_Proofs Api_Proofs3 Writer_Model Writer_Spec Writer_Proofs2 Archive_Model Archive_Spec Root_Model Root_Spec Root_Proofs Root_Proofs2 Root_Proofs5 Source_Model Source_Spec Source_Proofs Source_Proofs2 Source_Proofs4 Archive_Declared Declared_Spec Whole_Spec Whole_Tags Whole_Reads Whole_Unit Whole_Archive Whole_Lone Handoff_Model Handoff_Spec Sax_Model Sax_Spec Stream_Spec Sax_Proofs7 Back_Spec Back_Reads Back_Invert Back_Unit Back_Attrs Back_Archive.
Local Open Scope N_scope.

(** put the reports inside another element *)
Lemma reports_inside : forall m st s l, ncname m -> reports st s l -> reports (st ++ [m]) (s ++ txt "</" ++ m ++ [62] ++ []) (l ++ [XEnd m (txt "</" ++ m ++ [62])]).
Proof.
  intros m st s l M. induction 1 as [|n st r es s l C H60 H IH|n st t q al s l T TE H IH|n st t q al s l T TE H IH|n p local st s l NN H IH]; cbn [app].
  - apply (rp_end m None m [] [] []); [split; [exact M|reflexivity]|constructor].
  - rewrite <- app_assoc. rewrite <- app_assoc. apply rp_chars; [exact C| |exact IH]. destruct s; [discriminate H60|exact H60].
  - rewrite <- app_assoc. apply (rp_start n (st ++ [m]) t q al (s ++ _) (l ++ _) T TE IH).
  - rewrite <- app_assoc. apply (rp_empty n (st ++ [m]) t q al (s ++ _) (l ++ _) T TE IH).
  - pose proof (rp_end n p local (st ++ [m]) _ _ NN IH) as G. match type of G with reports _ ?x _ => match goal with |- reports _ ?y _ => replace y with x; [exact G|] end end.
    change (txt "</") with [60; 47]. cbn [app]. rewrite <- app_assoc. reflexivity.
Qed.
Definition told_name (e : xml_event) : list bytes := match e with Source_Model.XStart n _ _ => [n] | _ => [] end.
Lemma told_names : forall uri ts b, told uri ts b -> flat_map told_name b = flat_map tree_names ts.
Proof.
  induction 1 as [|s ts l T IH|i n al ts l T IH|i n al pl kids k ts l TK IHK T IH]; cbn [flat_map tree_names told_name app]; [reflexivity|..].
  - rewrite flat_map_app, IH. replace (flat_map told_name (map (fun c => XChars [c]) s)) with (@nil bytes) by (induction s; [reflexivity|assumption]). reflexivity.
  - rewrite IH. reflexivity.
  - rewrite flat_map_app, IHK. cbn [flat_map told_name app]. rewrite IH. reflexivity.
Qed.
Definition start_name (e : xev) : list bytes := match e with XStart t => [t_name t] | _ => [] end.
Lemma same_names_told : forall c b, same c b -> flat_map start_name c = flat_map told_name b.
Proof.
  induction 1 as [|plain raw text es l H IH|t u es l H IH|n raw es l H IH]; cbn [flat_map start_name told_name app]; [reflexivity|..].
  - rewrite flat_map_app, IH. replace (flat_map told_name (map (fun c => XChars [c]) text)) with (@nil bytes) by (induction text; [reflexivity|assumption]). reflexivity.
  - rewrite IH. reflexivity.
  - exact IH.
Qed.
Definition no_unit (e : xev) : Prop := match e with XStart t => t_name t <> txt "unit" | XEnd n _ => n <> txt "unit" | _ => True end.
Lemma starts_only : forall c, balanced c -> ~ In (txt "unit") (flat_map start_name c) -> Forall no_unit c.
Proof.
  induction 1 as [|e r L B IH|u r B IH O B2 IH2]; intros N; [constructor|..].
  - constructor; [destruct e; try contradiction L; exact Logic.I|]. apply IH. intros I. apply N. destruct e; try contradiction L; exact I.
  - unfold element_events in *. cbn [app flat_map start_name] in N |- *. rewrite <- app_assoc, flat_map_app in N. cbn [app flat_map start_name] in N.
    constructor; [intros E; apply N; left; exact E|]. rewrite <- app_assoc. apply Forall_app. split; [apply IH; intros I; apply N; right; apply in_or_app; left; exact I|].
    cbn [app]. constructor; [intros E; apply N; left; exact E|]. apply IH2. intros I. apply N. right. apply in_or_app. right. exact I.
Qed.
(** the text before the first element *)
Fixpoint leaves (c : list xev) : list xev * list xev :=
  match c with
  | XText p r t :: k => let (a, b) := leaves k in (XText p r t :: a, b)
  | _ => ([], c)
  end.
Lemma leaves_facts : forall c, balanced c -> Forall sane c -> exists a b, c = a ++ b /\ Forall leaf a /\ match b with [] => True | XStart t :: _ => hd [] (flat_map start_name c) = t_name t | _ => False end.
Proof.
  induction 1 as [|e r L B IH|u r B IH O B2 IH2]; intros S.
  - exists [], []. split; [reflexivity|]. split; [constructor|exact Logic.I].
  - destruct (IH (Forall_inv_tail S)) as (a & b & -> & F & H). exists (e :: a), b. split; [reflexivity|]. split; [constructor; [destruct e; try contradiction L; exact Logic.I|exact F]|].
    destruct b as [|[t| | | | | |] b]; try exact H. cbn [flat_map app]. destruct e; try contradiction L; exact H.
  - exists [], (element_events u ++ r). split; [reflexivity|]. split; [constructor|reflexivity].
Qed.
Lemma solo_form : forall extract a x ts s d evs,
  produced (a, []) -> fine_archive a [] -> N.testbit (a_options a) 14 = false -> a_revision_number a = None -> a_pi a = None -> cpp_named a -> lone_names ts ->
  parsed_in extract a x ts s -> solitary_doc a x = xml_declaration a ++ d ++ [10] -> reported [] d evs ->
  exists doc, evs = solo_events doc /\ solo_ok doc /\ t_attrs (s_tag doc) = sax_attributes (lone_attrs a (snd (fst x))) /\
    content_text (s_text doc ++ s_rest doc) = s /\ inner (snd (fst x)) = Ok (text_of (s_text doc ++ s_rest doc)).
Proof.
  intros extract a x ts s d evs PR FA A RN NPI CN (LN1 & LN2) PI DD RP. pose proof (produced_ns_ok _ PR) as K. cbn [fst] in K.
  destruct (parsed_facts extract a [] x ts s RN (proj1 K) FA PI) as (X & C & SN & FG). set (v := snd (fst x)) in *.
  assert (MO := out_fine a [] 0 _ FA SN).
  destruct PI as (u & lang & encoding & hash & w & N0 & U & H & FU & SH & P & XW & GU). assert (V : v = wu w) by (unfold v; rewrite XW; reflexivity).
  destruct (lone_declared extract a [] u lang encoding hash ts w PR N0 RN U H (shows_good _ _ SH) A P) as (D0 & _). rewrite <- V in D0.
  set (pre := fun i => prefix_at i (Archive_Spec.root_namespaces a)) in *. set (o := tag_settings a 0 (all_namespaces a v)) in *. set (g := in_archive_args a a v) in *.
  assert (P0 : pre 0%nat = prefix_at SRC (so_ns o)) by (symmetry; apply same_at; exact SN).
  assert (PX : forall p, find_uri (all_namespaces a v) SRC_URI = Some p -> ns_prefix p = pre 0%nat).
  { intros p F. destruct (prefix_used (a_namespaces a) 0 SRC_URI K eq_refl) as (NN & PU). unfold pre, Archive_Spec.root_namespaces. rewrite PU.
    pose proof (find_names _ _ SRC_URI SN) as FN. rewrite F in FN. unfold Archive_Spec.root_namespaces in FN. destruct (find_uri (merge default_namespaces (a_namespaces a)) SRC_URI); cbn in FN; [injection FN as FN; exact FN|discriminate FN]. }
  assert (ED : d = unit_xml (start_tag o g) (prefixed (prefix_at SRC (so_ns o)) (txt "unit")) (nonempty (flat_map (tree_xml pre) ts))).
  { unfold solitary_doc in DD. unfold instruction in DD. rewrite NPI in DD. cbn [app] in DD. apply app_inv_head in DD. 
    apply app_inv_tail in DD. rewrite <- DD. unfold unit_doc. rewrite X. cbn [fst snd]. rewrite C. reflexivity. }
  destruct RP as (before & t & q & al' & l & OB & TB & IT & EV & CASES). set (xm := XEnd (txt "m") (txt "</" ++ txt "m" ++ [62])).
  assert (M : ncname (txt "m")) by name_ok.
  assert (R3 : reports [txt "m"] (unit_xml (start_tag o g) (prefixed (prefix_at SRC (so_ns o)) (txt "unit")) (nonempty (flat_map (tree_xml pre) ts)) ++ txt "</" ++ txt "m" ++ [62] ++ []) (XStart t :: l ++ [xm])).
  { rewrite <- ED. destruct CASES as [(TE & s0 & ED2 & R)|(TE & ED2 & ->)]; rewrite ED2, <- !app_assoc.
    - exact (rp_start _ _ _ _ _ _ _ IT TE (reports_inside (txt "m") _ _ _ M R)).
    - apply (rp_empty _ _ _ _ _ _ [xm] IT TE). apply (rp_end (txt "m") None (txt "m") [] [] []); [split; [exact M|reflexivity]|constructor]. }
  destruct (unit_reported o g pre ts s [] (txt "m") [] (txt "</" ++ txt "m" ++ [62] ++ []) (XStart t :: l ++ [xm]) MO FG SH) as (e & l' & EL & R4 & UO & TA & CT & TX & uri & b & TD & SM).
  - intros i _. apply fine_prefix. exact (fa_ns _ _ FA).
  - exact P0.
  - apply fine_prefix. exact (fa_ns _ _ FA).
  - rewrite app_nil_r. apply (lookup_alone _ _ _ _ MO FG). destruct D0 as (p & F & I). rewrite (PX p F) in I. exact I.
  - intros E. destruct (update_unit _ _ MO FG) as (ua & E1 & E2 & _). rewrite E in E1. cbn in E1. injection E1 as <-. discriminate E2.
  - apply Forall_forall. intros n I E. destruct (names_in _ _ n SN I) as (k & J & EP & EU). rewrite <- EP. unfold cpp_named in CN. rewrite Forall_forall in CN. apply (CN k J). congruence.
  - exact R3.
  - destruct (end_reported _ _ _ _ R4) as (p' & local' & l3 & NN' & -> & R5). assert (l3 = []) as -> by (inversion R5; reflexivity).
    change (XStart t :: l ++ [xm]) with ((XStart t :: l) ++ [xm]) in EL.
    apply app_inj_tail in EL as (EL & _).
    destruct UO as (UT & UB & UC & UE). destruct e as [et ec ee]. cbn [e_tag e_content e_end] in *.
    assert (TN : ~ In (txt "unit") (flat_map start_name ec)) by (rewrite (same_names_told _ _ SM), (told_names _ _ _ TD); exact LN1).
    pose proof (starts_only _ UB TN) as NU.
    assert (SE : Forall sane ec).
    { clear -UC UB SM. assert (G : forall f, content_ok f ec -> Forall sane ec); [|exact (G _ UC)]. clear UC UB. induction SM as [|plain raw text es l H IH|t u es l H IH|n raw es l H IH]; intros f O; [constructor|..]; destruct O as (O1 & O2); (constructor; [|exact (IH _ O2)]); [exact O1|exact (proj1 O1)|exact Logic.I]. }
    destruct (leaves_facts _ UB SE) as (c1 & c2 & EC & LF & HD).
    assert (before = []) as ->. { destruct before as [|y before]; [reflexivity|]. exfalso. destruct (Forall_inv OB) as (_ & NY). unfold text_of in TB. cbn [map concat] in TB. destruct (xtext y); [contradiction|discriminate TB]. }
    exists (SoloDoc [] et c1 c2 ee [XSkip [10]]). unfold solo_events, solo_ok, solo_element. cbn [s_lead s_tag s_text s_rest s_end s_trail].
    rewrite <- EC. split; [rewrite EV; cbn [app]; change (XStart t :: l ++ [XSkip [10]]) with ((XStart t :: l) ++ [XSkip [10]]); rewrite EL; reflexivity|].
    split; [|split; [exact TA|split; [exact CT|]]].
    + split; [constructor|]. split; [exact Logic.I|]. split; [split; [exact UT|split; [exact UB|split; [exact UC|exact UE]]]|]. split; [exact LF|].
      rewrite EC in NU. apply Forall_app in NU as (_ & NU). split; [|split; [exact NU|constructor; [exact Logic.I|constructor]]].
      destruct c2 as [|[y| | | | | |] c2]; try exact HD. rewrite <- HD. rewrite (same_names_told _ _ SM), (told_names _ _ _ TD). exact LN2.
    + rewrite TX. destruct GU as ((bb & I & S) & _). rewrite X in I, S. cbn [fst snd] in I, S. unfold selects_revision in S. rewrite RN, C in S. fold v in I. rewrite I. f_equal.
      destruct (flat_map (tree_xml pre) ts), bb; try discriminate S; [reflexivity|]. injection S as S1 S2. congruence.
Qed.

Lemma lone_back_ok : forall extract a x ts s d b, a_revision_number a = None -> N.testbit (a_options a) 14 = false -> NoDup (map ns_uri (a_namespaces a)) -> fine_archive a [] -> parsed_in extract a x ts s ->
  t_attrs (s_tag d) = sax_attributes (lone_attrs a (snd (fst x))) -> content_text (s_text d ++ s_rest d) = s -> inner (snd (fst x)) = Ok (text_of (s_text d ++ s_rest d)) ->
  solo_is d b -> read_back a (snd (fst x)) s (t_attrs (s_tag d), b).
Proof.
  intros extract a x ts s d b RN A ND FA PI TA CT IN (B1 & B2 & B3 & B4 & B5).
  destruct (parsed_facts extract a [] x ts s RN ND FA PI) as (X & C & SN & FG). set (v := snd (fst x)) in *. assert (MO := out_fine a [] 0 _ FA SN).
  destruct (update_unit _ _ MO FG) as (ua & E & E1 & E2 & E3 & E4 & E5 & E6 & E7 & E8). unfold read_back. cbn [fst snd]. split; [|split; [rewrite B2; exact CT|intros o; rewrite B4, IN; reflexivity]].
  exists ua. rewrite TA. split; [exact E|]. unfold in_archive_args in *. cbn [g_language g_revision g_url g_filename g_version g_timestamp g_hash g_encoding g_attributes] in *.
  unfold Archive_Spec.is_archive, opt in *. change (N.testbit (a_options a) B_ARCHIVE) with (N.testbit (a_options a) 14) in *. rewrite A, RN in *.
  change (N.testbit (so_options (tag_settings a 0 (all_namespaces a v))) B_STORE_ENCODING) with (N.testbit (a_options a) 6) in E8.
  assert (RA : forall o : option bytes, rev_attr None o = o) by (intros [o|]; reflexivity). rewrite !RA in *.
  repeat (split; [assumption|]). exact E8.
Qed.
Theorem unit_read_back : forall extract a x ts src d evs err ops ls s,
  produced (a, []) -> fine_archive a [] -> N.testbit (a_options a) 14 = false -> a_revision_number a = None -> a_pi a = None -> cpp_named a -> lone_names ts ->
  parsed_in extract a x ts src -> solitary_doc a x = xml_declaration a ++ d ++ [10] -> reported [] d evs ->
  calm ls -> steps sax ls (open (parse evs err) ops) = Some s ->
  (cl s = CGone \/ exists l s', (l = Caller \/ l = Parser) /\ step sax l s = Some s') /\ (length ls <= 12 * length ops + 31)%nat /\
  (cl s = CGone -> exists r, read_back a (snd (fst x)) src r /\ results s = Handoff_Spec.reads [(fst r, Some (snd r))] ops).
Proof.
  intros extract a x ts src d evs err ops ls s PR FA A RN NPI CN LN PI DD RP CA ST. pose proof (produced_ns_ok _ PR) as K. cbn [fst] in K.
  destruct (solo_form extract a x ts src d evs PR FA A RN NPI CN LN PI DD RP) as (doc & -> & OK & TA & CT & IN).
  destruct (solo_not_stuck doc err ops ls s OK CA ST) as (G & B). split; [exact G|]. split; [exact B|]. intros GO.
  destruct (solo_read doc err ops ls s OK CA ST GO) as (b & SB & RS). exists (t_attrs (s_tag doc), b).
  split; [exact (lone_back_ok extract a x ts src doc b RN A (proj1 K) FA PI TA CT IN SB)|exact RS].
Qed.
