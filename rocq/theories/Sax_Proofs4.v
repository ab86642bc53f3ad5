(** C39, C27: archives, from the beginning. *)
From Verif Require Import Base Text_Model Text_Proofs Text_Proofs3 Api_Model Writer_Model Handoff_Model Handoff_Spec Sax_Model Sax_Spec Sax_Proofs Sax_Proofs2 Sax_Proofs3.

(** * The end *)
Definition whole_end (d : ending) : bool := match d with Whole _ _ => true | _ => false end.
Lemma ending_shows ns d A err s : ending_ok d -> (whole_end d = false -> err = true) -> between ns A (text_of (ending_events d)) s ->
  shows sax (advance (ending_events d) err s) (ending_units d) (whole_end d).
Proof.
  intros Ok Er B. destruct d as [raw trail|g|t p q]; cbn [ending_events ending_units whole_end ending_ok] in *.
  - exact (root_end ns A _ raw trail err s Ok B).
  - rewrite (Er eq_refl). rewrite <- (app_nil_r (text_of g)) in B. destruct (gaps_run ns g A [] s Ok (between_loose _ _ _ _ B)) as [s1 [E L]].
    pose proof (advance_quiet g _ _ [] true E) as E0. rewrite app_nil_r in E0. rewrite E0. apply shows_error.
    assert (Bd : bad s1 = false) by apply L. cbn [advance sax next sax_next]. rewrite Bd. reflexivity.
  - rewrite (Er eq_refl). destruct Ok as [Em [raw Ok]].
    assert (Tx : text_of (XStart t :: p) = element_text (Element t p []) ++ []).
    { rewrite element_text_split, rest_open by exact Em. rewrite text_cons. cbn [xtext e_tag]. rewrite Em, !app_nil_r, <- app_assoc. reflexivity. }
    rewrite Tx in B.
    destruct (unit_start ns A [] (Element t p []) s p true) as [s1 [E Rd]]; [apply Ok|unfold end_ok; cbn [e_tag]; rewrite Em; exact I|exact B|].
    cbn [e_tag] in E. rewrite E. unfold ready in Rd. cbn [e_tag] in Rd. destruct Rd as [D [Cu [Ba [De [Ar [_ [_ [Bd _]]]]]]]].
    apply (cut_shows A [] t p q raw); try assumption. rewrite D, element_text_split, rest_open by exact Em. cbn [e_tag]. rewrite !app_nil_r, <- ?app_assoc. reflexivity.
Qed.

(** * The beginning *)
(** Before the root's start tag; between it and the first element. *)
Definition leading (A R : bytes) (s : sst) : Prop :=
  doc s = A ++ R /\ cur s = length A /\ base s <= length A /\ depth s = 0 /\ sp s = SRoot /\ cp s = CUnit /\ on s = true /\ collect s = true /\
  is_archive s = false /\ rootcalled s = false /\ rootns s = [] /\ bad s = false.
Definition opening (ns A R : bytes) (s : sst) : Prop :=
  doc s = A ++ R /\ cur s = length A /\ base s = length A /\ depth s = 1 /\ sp s = SFirst /\ cp s = CUnit /\ on s = true /\ collect s = true /\
  is_archive s = false /\ rootcalled s = false /\ rootns s = ns /\ bad s = false.

Lemma pi_ok X : collect X = true -> base X <= cur X -> processing_instruction X = base_here (append (slice (doc X) (base X) (cur X)) X).
Proof. intros C L. unfold processing_instruction, append_to. rewrite C. replace (cur X <? base X) with false by (symmetry; apply Nat.ltb_ge; exact L). reflexivity. Qed.

Lemma lead_step A R e s : outside e -> leading A (xtext e ++ R) s -> exists s', run_micros (callback e s) s = (s', None) /\ leading (A ++ xtext e) R s' /\ (match e with XSkip _ => True | _ => base s' = cur s' end).
Proof.
  intros O [D [Cu [Ba [De [Sp [Cp [On [Co [Ar [Rc [Rn Bd]]]]]]]]]]]. sst_destruct s. fields. subst.
  destruct e as [t|nm raw|p raw text|raw value|raw value|raw|raw]; cbn [xtext outside] in *; try contradiction O; clear O.
  - eexists. split; [reflexivity|]. split; [|reflexivity]. unfold leading. cbn. rewrite !app_length, <- !app_assoc. repeat split; try lia; reflexivity.
  - cbn [callback]. fields. cbn [run_micros]. eexists. split; [reflexivity|]. rewrite pi_ok; [|reflexivity|cbn; lia].
    split; [|reflexivity]. unfold leading. cbn. rewrite !app_length, <- !app_assoc. repeat split; try lia; reflexivity.
  - eexists. split; [reflexivity|]. split; [|exact I]. unfold leading. cbn. rewrite !app_length, <- !app_assoc. repeat split; try lia; reflexivity.
Qed.
Lemma lead_run : forall l A R s, Forall outside l -> leading A (text_of l ++ R) s -> exists s', quiet_run l s = Some s' /\ leading (A ++ text_of l) R s' /\
  (match l with [] => base s = cur s | _ => match last l (XSkip []) with XSkip _ => False | _ => True end end -> base s' = cur s').
Proof.
  induction l as [|e l IH]; intros A R s F L.
  - exists s. cbn. rewrite app_nil_r. split; [reflexivity|]. split; [exact L|]. auto.
  - rewrite text_cons, <- app_assoc in L. destruct (lead_step A _ e s (Forall_inv F) L) as [s1 [E1 [L1 K1]]].
    destruct (IH _ _ _ (Forall_inv_tail F) L1) as [s2 [E2 [L2 K2]]]. exists s2. cbn [quiet_run]. rewrite E1. split; [exact E2|]. rewrite text_cons, app_assoc. split; [exact L2|].
    intros La. apply K2. destruct l as [|e' l']; [|exact La]. cbn [last] in La. destruct e; try exact K1. destruct La.
Qed.

(** The root's start tag. *)
Lemma pre_solo t d c b n p q o co rc rt rn x tx l cb e ib ie pp bd : unit_tag t -> b + name_end t <= c + 1 ->
  exists pp', start_unit_pre t (Sst d c b n p q o false co rc rt rn x tx l cb e ib ie pp bd) =
    Sst d c (S c) n p q o false co rc rt rn (slice d b (b + name_end t) ++ slice d (b + name_end t) (c + 1)) tx l
      (length (slice d b (b + name_end t) ++ slice d (b + name_end t) (c + 1))) e (length (slice d b (b + name_end t)))
      (solo_insert_end (slice d b (b + name_end t) ++ slice d (b + name_end t) (c + 1))) pp' bd.
Proof.
  intros [Nm [Tg Cp]] Le. unfold start_unit_pre.
  destruct (cpp_ok (t_ns t) d c b n p q o false co rc rt rn x tx l cb e ib ie bd Cp pp) as [pp' ->]. exists pp'. cbv zeta.
  cbn [doc base cur is_archive set_text]. replace (c + 1 <? b + name_end t) with false by (symmetry; apply Nat.ltb_ge; exact Le).
  unfold append, set_pos, set_marks. cbn [set_text doc cur base depth sp cp on is_archive collect rootcalled root rootns srcml src loc cbegin cend ibegin iend cpp_prefix bad].
  rewrite (Nat.add_1_r c). reflexivity.
Qed.
Lemma tag_length t : unit_tag t -> name_end t <= length (t_raw t).
Proof. intros [_ [Tg _]]. rewrite Tg, app_length, head_length. lia. Qed.

Lemma root_run t A R s : unit_tag t -> t_empty t = false -> leading A (t_raw t ++ [62%N] ++ R) s ->
  exists s', run_micros (callback (XStart t) s) s = (s', None) /\ opening (root_namespaces t) (A ++ t_raw t ++ [62%N]) R s' /\
    root s' = t_attrs t /\ src s' = [] /\
    (base s = cur s -> srcml s' = t_raw t ++ [62%N] /\ cbegin s' = (length (t_raw t) + 1) /\ ibegin s' = length (tag_head t) /\ iend s' = solo_insert_end (t_raw t ++ [62%N])).
Proof.
  intros Tg Em [D [Cu [Ba [De [Sp [Cp [On [Co [Ar [Rc [Rn Bd]]]]]]]]]]]. pose proof (tag_length t Tg) as Le. sst_destruct s. fields. subst cur0 depth0 sp0 cp0 on0 co0 ar0 rc0 rns0 bad0.
  cbn [callback]. fields. unfold start_root. rewrite Em. cbn [app start_unit run_micros].
  change (save_root t (advance_by (length (t_raw t)) (Sst doc0 (length A) base0 0 SRoot CUnit true false true false rt0 [] sr0 sc0 lc0 cb0 ce0 ib0 ie0 cpp0 false)))
    with (Sst doc0 (length A + length (t_raw t)) base0 0 SRoot CUnit true false true false (t_attrs t) (root_namespaces t) sr0 sc0 lc0 cb0 ce0 ib0 ie0 cpp0 false).
  edestruct pre_solo as [pp' E]; [exact Tg| |rewrite E; clear E]; [lia|].
  eexists. split; [reflexivity|]. split; [|split; [reflexivity|split; [reflexivity|]]].
  - unfold opening. cbn. rewrite !app_length, D, <- !app_assoc. cbn [length]. repeat split; try lia; reflexivity.
  - intros Eb. fields. subst base0.
    assert (S1 : slice doc0 (length A) (length A + name_end t) = tag_head t).
    { destruct Tg as [_ [Tg _]]. apply (slice_at A (tag_head t) (tag_tail t ++ [62%N] ++ R)); [rewrite D, Tg at 1; rewrite <- !app_assoc; reflexivity|reflexivity|rewrite head_length; reflexivity]. }
    assert (S2 : slice doc0 (length A + name_end t) (length A + length (t_raw t) + 1) = tag_tail t ++ [62%N]).
    { destruct Tg as [_ [Tg _]]. apply (slice_at (A ++ tag_head t) (tag_tail t ++ [62%N]) R); [rewrite D, Tg at 1; rewrite <- !app_assoc; reflexivity|rewrite app_length, head_length; reflexivity|rewrite Tg at 1; rewrite !app_length, head_length; cbn [length]; lia]. }
    rewrite S1, S2. destruct Tg as [_ [Tg _]]. rewrite !(app_assoc (tag_head t)), <- Tg.
    cbn. rewrite app_length. repeat split.
Qed.

(** The preface. *)
Lemma opening_close X y : nth_error (doc X) (base X) = Some y -> y <> 62%N -> close_bracket X = X.
Proof.
  intros E H. unfold close_bracket. rewrite E. destruct y as [|p]; [reflexivity|].
  repeat (destruct p as [p|p|]; try reflexivity). contradiction H. reflexivity.
Qed.
Lemma preface_step ns A R e s : gap_event e -> opening ns A (xtext e ++ R) s ->
  exists s', run_micros (callback e s) s = (s', None) /\ opening ns (A ++ xtext e) R s'.
Proof.
  intros G [D [Cu [Ba [De [Sp [Cp [On [Co [Ar [Rc [Rn Bd]]]]]]]]]]]. sst_destruct s. fields. subst.
  destruct e as [t|nm raw|[|] raw text|raw value|raw value|raw|raw]; cbn [xtext gap_event blank_event] in *; try contradiction G.
  - destruct G as [<- [Ne Bl]]. destruct raw as [|c r]; [contradiction Ne; reflexivity|]. pose proof (Forall_inv Bl) as Hc.
    cbn [callback run_micros]. eexists. split; [reflexivity|]. unfold characters. change (cp (advance_by _ _)) with CUnit. unfold characters_unit. change (Sax_Model.collect (advance_by _ _)) with true. cbn match. cbv zeta.
    match goal with |- context [close_bracket ?X] => rewrite (opening_close X c) end.
    2:{ cbn. rewrite nth_error_app2, Nat.sub_diag by lia. reflexivity. }
    2:{ intros ->. cbn in Hc. repeat (destruct Hc as [Hc|Hc]; [discriminate Hc|]). exact Hc. }
    match goal with |- context [if (?a =? ?b) then _ else _] => replace (a =? b) with false by (symmetry; apply Nat.eqb_neq; cbn; lia) end.
    unfold append_to.
    match goal with |- context [if (?a <? ?b) then _ else _] => replace (a <? b) with false by (symmetry; apply Nat.ltb_ge; cbn; lia) end.
    unfold opening. cbn. rewrite !app_length, <- !app_assoc. cbn [length app]. repeat split; try lia; reflexivity.
  - cbn [callback]. fields. cbn [run_micros]. eexists. split; [reflexivity|]. unfold opening. cbn. rewrite !app_length, <- !app_assoc. repeat split; try lia; reflexivity.
  - cbn [callback]. fields. cbn [run_micros]. eexists. split; [reflexivity|]. rewrite pi_ok; [|reflexivity|cbn; lia].
    unfold opening. cbn. rewrite !app_length, <- !app_assoc. repeat split; try lia; reflexivity.
Qed.
Lemma macro_step ns A R t raw s : t_name t = txt "macro-list" -> opening ns A (text_of [XStart t; XEnd (txt "macro-list") raw] ++ R) s ->
  exists s', quiet_run [XStart t; XEnd (txt "macro-list") raw] s = Some s' /\ opening ns (A ++ text_of [XStart t; XEnd (txt "macro-list") raw]) R s'.
Proof.
  intros Nm [D [Cu [Ba [De [Sp [Cp [On [Co [Ar [Rc [Rn Bd]]]]]]]]]]]. sst_destruct s. fields. subst cur0 base0 depth0 sp0 cp0 on0 co0 ar0 rc0 rns0 bad0.
  cbn [quiet_run callback]. fields. unfold first_start_element. rewrite Nm. change (beqb (txt "macro-list") (txt "macro-list")) with true. cbn [app run_micros].
  match goal with |- context [end_element _ _ ?X] => set (X1 := X) end.
  assert (E1 : X1 = Sst doc0 (length A + length (t_raw t) + (if t_empty t then 0 else 1)) (length A) 2 SFirst CUnit true false true false rt0 ns sr0 sc0 lc0 cb0 ce0 ib0 ie0 cpp0 false) by reflexivity.
  unfold end_element. replace (Sax_Model.collect X1 && (cur X1 + length raw <? base X1)) with false by (rewrite E1; cbn [collect cur base andb]; symmetry; apply Nat.ltb_ge; lia).
  change (beqb (txt "macro-list") (txt "unit")) with false. cbv zeta. cbn [app run_micros]. rewrite E1, end_do_collect.
  eexists. split; [reflexivity|]. unfold opening. cbn. rewrite !app_length, D, <- !app_assoc. cbn [length]. rewrite Nat.add_0_r. unfold text_of. cbn [map concat xtext]. rewrite ?app_nil_r, ?app_length, <- ?app_assoc.
  destruct (t_empty t); cbn [length app]; repeat split; try lia; reflexivity.
Qed.
Lemma preface_run ns l : preface l -> forall A R s, opening ns A (text_of l ++ R) s -> exists s', quiet_run l s = Some s' /\ opening ns (A ++ text_of l) R s'.
Proof.
  induction 1 as [|e r G P IH|t raw r Nm P IH]; intros A R s O.
  - exists s. cbn. rewrite app_nil_r. split; [reflexivity|exact O].
  - rewrite text_cons, <- app_assoc in O. destruct (preface_step ns A _ e s G O) as [s1 [E1 O1]]. destruct (IH _ _ _ O1) as [s2 [E2 O2]].
    exists s2. cbn [quiet_run]. rewrite E1, text_cons, app_assoc. split; [exact E2|exact O2].
  - change (XStart t :: XEnd (txt "macro-list") raw :: r) with ([XStart t; XEnd (txt "macro-list") raw] ++ r) in *. rewrite text_app, <- app_assoc in O.
    destruct (macro_step ns A _ t raw s Nm O) as [s1 [E1 O1]]. destruct (IH _ _ _ O1) as [s2 [E2 O2]].
    exists s2. split; [exact (quiet_app _ _ _ _ _ E1 E2)|]. rewrite text_app, app_assoc. exact O2.
Qed.

(** The first unit. *)
Lemma first_unit ns A R u s evs err h b vs e : unit_tag (e_tag u) -> end_ok (e_tag u) (e_content u) (e_end u) -> opening ns A (element_text u ++ R) s ->
  (forall s', ready ns A R u s' -> shows sax (PAt s' (KUnit (t_attrs (e_tag u))) (unit_rest (e_tag u)) evs err) ((h, b) :: vs) e) ->
  begins sax 1 (advance (XStart (e_tag u) :: evs) err s) ((h, b) :: vs) e.
Proof.
  intros Tg En [D [Cu [Ba [De [Sp [Cp [On [Co [Ar [Rc [Rn Bd]]]]]]]]]]] Nx. rewrite element_text_split in D. destruct (rest_head u En) as [r Er].
  sst_destruct s. fields. subst cur0 base0 depth0 sp0 cp0 on0 co0 ar0 rc0 rns0 bad0. cbn [advance callback]. fields.
  unfold first_start_element. rewrite (proj1 Tg). change (beqb (txt "unit") (txt "macro-list")) with false. change (beqb (txt "unit") (txt "unit")) with true.
  cbn [app reparse_root run_micros start_unit].
  apply begins_root; [reflexivity|]. cbn [sax after sax_after]. unfold resume. cbn [run_micros].
  match goal with |- context [start_unit_pre _ ?X] => replace X with
    (Sst doc0 (length A + length (t_raw (e_tag u))) (length A) 1 SElement CUnit true true true true rt0 ns sr0 sc0 0 cb0 ce0 ib0 ie0 cpp0 false) by reflexivity end.
  edestruct pre_explicit as [pp' E]; [exact Tg| |reflexivity|reflexivity|rewrite E; clear E].
  { rewrite D, <- app_assoc, Er. reflexivity. }
  apply begins_units. apply Nx. unfold ready. fields. rewrite element_text_split. repeat split. exact D.
Qed.

(** * The archive *)
Lemma archive_begins d err : archive_ok d -> (whole d = false -> err = true) ->
  exists k, k <= 1 /\ begins sax k (parse (archive_events d) err) (read_units d) (whole d).
Proof.
  intros [Le [Rt [Em [Pf [Us [En Ne]]]]]] Er. destruct d as [lead rt pf us en]. cbn [a_lead a_root a_preface a_units a_ending] in *. unfold whole in *. cbn [a_ending] in *.
  fold (whole_end en) in *. unfold parse. set (evs := archive_events _). set (ns := root_namespaces rt).
  assert (Tx : text_of evs = text_of lead ++ t_raw rt ++ [62%N] ++ text_of pf ++ text_of (units_events us) ++ text_of (ending_events en)).
  { subst evs. unfold archive_events. cbn [a_lead a_root a_preface a_units a_ending]. rewrite text_app, text_cons, !text_app. cbn [xtext]. rewrite Em, <- !app_assoc. reflexivity. }
  assert (L0 : leading [] (text_of lead ++ t_raw rt ++ [62%N] ++ text_of pf ++ text_of (units_events us) ++ text_of (ending_events en)) (sax_init (text_of evs))).
  { unfold leading. rewrite Tx. cbn. repeat split. lia. }
  destruct (lead_run lead [] _ _ Le L0) as [s1 [E1 [L1 _]]].
  assert (Ev : evs = lead ++ XStart rt :: pf ++ units_events us ++ ending_events en) by reflexivity.
  clear L0. generalize dependent (sax_init (text_of evs)). intros s0 E1. rewrite Ev. rewrite (advance_quiet lead _ _ _ _ E1). clear E1.
  destruct (root_run rt _ _ _ Rt Em L1) as [s2 [E2 [O2 _]]]. cbn [advance]. rewrite E2. fold ns in O2.
  destruct (preface_run ns pf Pf _ _ _ O2) as [s3 [E3 O3]]. rewrite (advance_quiet pf _ _ _ _ E3).
  unfold read_units. cbn [a_units a_root a_ending]. fold ns. change (fun p : element * list xev => (t_attrs (e_tag (fst p)), Some (unit_body ns (fst p)))) with (one_unit ns).
  destruct us as [|[u g] us].
  - cbn [units_events map concat app] in *. destruct en as [raw trail|g|t p q]; [contradiction Ne; reflexivity| |].
    + exists 0. split; [lia|]. rewrite (Er eq_refl). cbn [ending_events ending_units whole_end] in *. change (text_of []) with (@nil N) in O3. cbn [app] in O3.
      assert (Pg : preface g) by (clear -En; induction g as [|e g IH]; [exact pre_nil|apply pre_gap; [exact (Forall_inv En)|exact (IH (Forall_inv_tail En))]]).
      rewrite <- (app_nil_r (text_of g)) in O3. destruct (preface_run ns g Pg _ _ _ O3) as [s4 [E4 O4]].
      pose proof (advance_quiet g _ _ [] true E4) as E0. rewrite app_nil_r in E0. rewrite E0. apply begins_error.
      assert (Bd : bad s4 = false) by apply O4. cbn [advance sax next sax_next]. rewrite Bd. reflexivity.
    + exists 1. split; [lia|]. rewrite (Er eq_refl). cbn [ending_events ending_units whole_end ending_ok] in *. destruct En as [Emt [raw Ok]].
      assert (Tx2 : text_of (XStart t :: p) = element_text (Element t p []) ++ []).
      { rewrite element_text_split, rest_open by exact Emt. rewrite text_cons. cbn [xtext e_tag]. rewrite Emt, !app_nil_r, <- app_assoc. reflexivity. }
      change (text_of []) with (@nil N) in O3. cbn [app] in O3. rewrite Tx2 in O3.
      apply (first_unit ns ((text_of lead ++ t_raw rt ++ [62%N]) ++ text_of pf) [] (Element t p []) _ p true); [apply Ok|unfold end_ok; cbn [e_tag]; rewrite Emt; exact I|exact O3|].
      intros s4 Rd. unfold ready in Rd. cbn [e_tag] in *. destruct Rd as [D [Cu [Ba [De [Ar [_ [_ [Bd _]]]]]]]].
      eapply cut_shows; try eassumption. rewrite D, element_text_split, rest_open by exact Emt. cbn [e_tag]. rewrite !app_nil_r, <- ?app_assoc. reflexivity.
  - exists 1. split; [lia|]. destruct (Forall_inv Us) as [Ou Og]. cbn [fst snd] in Ou, Og.
    assert (T : text_of (units_events ((u, g) :: us)) = element_text u ++ text_of g ++ text_of (units_events us)).
    { unfold units_events. cbn [map concat fst snd]. rewrite !text_app. unfold element_text. rewrite app_assoc. reflexivity. }
    rewrite T, <- !app_assoc in O3.
    assert (Ev2 : units_events ((u, g) :: us) ++ ending_events en = XStart (e_tag u) :: e_content u ++ XEnd (t_name (e_tag u)) (e_end u) :: g ++ units_events us ++ ending_events en).
    { unfold units_events. cbn [map concat fst snd]. unfold element_events. cbn [app]. rewrite <- !app_assoc. reflexivity. }
    rewrite Ev2. destruct Ou as [Tg Ou]. pose proof Ou as [Bal [Con Eno]]. cbn [map app]. unfold one_unit at 1. cbn [fst].
    eapply first_unit; [exact Tg|exact Eno|exact O3|]. intros s4 Rd.
    eapply unit_shows; [exact (conj Tg Ou)|exact Rd|]. intros s5 B5. destruct (gap_run ns g _ _ s5 Og B5) as [s6 [E6 B6]]. rewrite (advance_quiet g _ _ _ _ E6).
    eapply units_show; [exact (Forall_inv_tail Us)|exact B6|]. intros s7 B7.
    exact (ending_shows ns en _ err s7 En Er B7).
Qed.
