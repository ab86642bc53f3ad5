(** C39, C27: archives. *)
From Verif Require Import Base Text_Model Text_Proofs Text_Proofs3 Api_Model Writer_Model Handoff_Model Handoff_Spec Sax_Model Sax_Spec Sax_Proofs Sax_Proofs2.

Lemma cpp_ok ns d c b n p q o a co rc rt rn x tx l cb e ib ie bd :
  Forall (fun m : option bytes * bytes => snd m = CPP_URI -> fst m <> None) ns -> forall pp, exists pp',
  collect_cpp ns (Sst d c b n p q o a co rc rt rn x tx l cb e ib ie pp bd) = Sst d c b n p q o a co rc rt rn x tx l cb e ib ie pp' bd.
Proof.
  induction ns as [|[m u] ns IH]; intros F pp; [exists pp; reflexivity|]. cbn [collect_cpp].
  pose proof (Forall_inv F) as F1. specialize (IH (Forall_inv_tail F)). cbn [fst snd] in F1.
  destruct (beqb u CPP_URI) eqn:Q; [|exact (IH pp)]. apply beqb_true in Q. destruct m as [m|]; [exact (IH (Some []))|]. contradiction (F1 Q eq_refl).
Qed.

Lemma head_length t : length (tag_head t) = name_end t.
Proof.
  unfold tag_head, qname, name_end. cbn [length]. rewrite !app_length. cbn [length]. destruct (t_prefix t) as [p|]; [rewrite app_length|]; cbn [length]; lia.
Qed.

Lemma pre_explicit t d c b n p q o co rc rt rn x tx l cb e ib ie pp bd A y r : unit_tag t -> d = A ++ t_raw t ++ y :: r -> b = length A -> c = length A + length (t_raw t) ->
  exists pp', start_unit_pre t (Sst d c b n p q o true co rc rt rn x tx l cb e ib ie pp bd) =
    Sst d c (S c) n p q o true co rc rt rn (tag_head t ++ rn ++ tag_tail t ++ [y]) tx l
      (length (tag_head t) + length rn + length (tag_tail t) + 1) e (length (tag_head t)) (length (tag_head t) + length rn) pp' bd.
Proof.
  intros [Nm [Tg Cp]] Hd Hb Hc. unfold start_unit_pre.
  destruct (cpp_ok (t_ns t) d c b n p q o true co rc rt rn x tx l cb e ib ie bd Cp pp) as [pp' ->]. exists pp'. cbv zeta.
  rewrite <- head_length. cbn [doc base]. unfold append. cbn [set_text doc cur base depth sp cp on is_archive collect rootcalled root rootns srcml src loc cbegin cend ibegin iend cpp_prefix bad].
  rewrite Hd, Hb, Hc.
  rewrite (slice_at A (tag_head t) (tag_tail t ++ y :: r)) by (try reflexivity; rewrite Tg at 1; rewrite <- !app_assoc; reflexivity).
  assert (L : length (t_raw t) = length (tag_head t) + length (tag_tail t)) by (rewrite Tg at 1; apply app_length).
  replace (length A + length (t_raw t) + 1 <? length A + length (tag_head t)) with false by (symmetry; apply Nat.ltb_ge; lia).
  rewrite (slice_at (A ++ tag_head t) (tag_tail t ++ [y]) r);
    [|rewrite Tg at 1; rewrite <- !app_assoc; reflexivity|rewrite app_length; reflexivity|rewrite !app_length; cbn [length]; lia].
  unfold set_pos, set_marks. cbn [set_text doc cur base depth sp cp on is_archive collect rootcalled root rootns srcml src loc cbegin cend ibegin iend cpp_prefix bad].
  rewrite <- !app_assoc, !app_length. cbn [length]. rewrite Nat.add_1_r. rewrite !Nat.add_assoc. reflexivity.
Qed.

Lemma rest_head u : end_ok (e_tag u) (e_content u) (e_end u) -> exists r, element_rest u = (if t_empty (e_tag u) then 47%N else 62%N) :: r.
Proof.
  destruct u as [t con raw]. cbn [e_tag e_content e_end]. intros En. destruct (t_empty t) eqn:Em.
  - destruct (rest_empty t con raw Em En) as [-> _]. exists [62%N]. reflexivity.
  - rewrite (rest_open t con raw Em). eexists. reflexivity.
Qed.

(** A unit's start tag after another unit. *)
Lemma unit_start ns A R u s evs err : unit_tag (e_tag u) -> end_ok (e_tag u) (e_content u) (e_end u) -> between ns A (element_text u ++ R) s ->
  exists s', advance (XStart (e_tag u) :: evs) err s = PAt s' (KUnit (t_attrs (e_tag u))) (unit_rest (e_tag u)) evs err /\ ready ns A R u s'.
Proof.
  intros Tg En [D [Cu [Ba [De [Sp [Cp [On [Ar [Rc [Rn Bd]]]]]]]]]]. rewrite element_text_split in D. destruct (rest_head u En) as [r Er].
  sst_destruct s. fields. subst. cbn [advance callback]. fields. cbn [app start_unit run_micros].
  change (advance_by (length (t_raw (e_tag u))) (Sst (A ++ (t_raw (e_tag u) ++ element_rest u) ++ R) (length A) (length A) 1 SUnit CRoot co0 true co0 true rt0 ns sr0 sc0 lc0 cb0 ce0 ib0 ie0 cpp0 false))
    with (Sst (A ++ (t_raw (e_tag u) ++ element_rest u) ++ R) (length A + length (t_raw (e_tag u))) (length A) 1 SUnit CRoot co0 true co0 true rt0 ns sr0 sc0 lc0 cb0 ce0 ib0 ie0 cpp0 false).
  edestruct pre_explicit as [pp' E]; [exact Tg| |reflexivity|reflexivity|rewrite E; clear E].
  { rewrite <- app_assoc, Er. reflexivity. }
  eexists. split; [reflexivity|]. unfold ready. fields. rewrite element_text_split. repeat split.
Qed.

(** Gaps. *)
Definition loose (ns A R : bytes) (s : sst) : Prop :=
  doc s = A ++ R /\ cur s = length A /\ base s <= length A /\ depth s = 1 /\ sp s = SUnit /\ cp s = CRoot /\ on s = collect s /\
  is_archive s = true /\ rootcalled s = true /\ rootns s = ns /\ bad s = false.
Lemma between_loose ns A R s : between ns A R s -> loose ns A R s.
Proof. intros [D [Cu [Ba K]]]. repeat split; try assumption; try apply K. lia. Qed.
Lemma gap_step ns A R e s : gap_event e -> loose ns A (xtext e ++ R) s ->
  exists s', run_micros (callback e s) s = (s', None) /\ loose ns (A ++ xtext e) R s' /\ (blank_event e -> base s' = cur s').
Proof.
  intros G [D [Cu [Ba [De [Sp [Cp [On [Ar [Rc [Rn Bd]]]]]]]]]]. sst_destruct s. fields. subst.
  destruct e as [t|nm raw|[|] raw text|raw value|raw value|raw|raw]; cbn [xtext] in *; try contradiction G; clear G.
  - eexists. split; [reflexivity|]. split; [|intros _; reflexivity]. unfold loose. cbn. rewrite !app_length, <- !app_assoc. repeat split; try lia; reflexivity.
  - destruct co0.
    + eexists. split; [reflexivity|]. split; [|intros []]. unfold loose. cbn. rewrite !app_length, <- !app_assoc. repeat split; try lia; reflexivity.
    + eexists. split; [reflexivity|]. split; [|intros []]. unfold loose. cbn. rewrite !app_length, <- !app_assoc. repeat split; try lia; reflexivity.
  - destruct co0.
    + cbn [callback]. fields. cbn [run_micros]. eexists. split; [reflexivity|]. split; [|intros []].
      match goal with |- loose _ _ _ (processing_instruction ?X) => replace (processing_instruction X) with (base_here (append (slice (A ++ raw ++ R) base0 (length A + length raw)) X)) end.
      2:{ unfold processing_instruction, append_to. change (Sax_Model.collect (advance_by _ _)) with true.
          match goal with |- context [if (?a <? ?b) then _ else _] => replace (a <? b) with false by (symmetry; apply Nat.ltb_ge; cbn; lia) end. reflexivity. }
      unfold loose. cbn. rewrite !app_length, <- !app_assoc. repeat split; try lia; reflexivity.
    + eexists. split; [reflexivity|]. split; [|intros []]. unfold loose. cbn. rewrite !app_length, <- !app_assoc. repeat split; try lia; reflexivity.
Qed.
Lemma gaps_run ns : forall g A R s, Forall gap_event g -> loose ns A (text_of g ++ R) s ->
  exists s', quiet_run g s = Some s' /\ loose ns (A ++ text_of g) R s'.
Proof.
  induction g as [|e g IH]; intros A R s F L.
  - exists s. split; [reflexivity|]. cbn. rewrite app_nil_r. exact L.
  - rewrite text_cons, <- app_assoc in L. destruct (gap_step ns A (text_of g ++ R) e s (Forall_inv F) L) as [s1 [E1 [L1 _]]].
    destruct (IH _ _ _ (Forall_inv_tail F) L1) as [s2 [E2 L2]]. exists s2. cbn [quiet_run]. rewrite E1. split; [exact E2|].
    rewrite text_cons, app_assoc. exact L2.
Qed.
Lemma loose_between ns A R s : loose ns A R s -> base s = cur s -> between ns A R s.
Proof. intros [D [Cu [Ba K]]] E. repeat split; try assumption; try apply K. lia. Qed.
Lemma gap_run ns g A R s : gap g -> between ns A (text_of g ++ R) s -> exists s', quiet_run g s = Some s' /\ between ns (A ++ text_of g) R s'.
Proof.
  intros [->|[h [b [-> [F Bk]]]]] B.
  - exists s. split; [reflexivity|]. cbn. rewrite app_nil_r. exact B.
  - rewrite text_app, <- app_assoc in B. destruct (gaps_run ns h A _ s F (between_loose _ _ _ _ B)) as [s1 [E1 L1]].
    unfold text_of at 2 in L1. cbn [map concat] in L1. rewrite app_nil_r in L1.
    assert (G : gap_event b) by (destruct b as [|? ?|[|] ? ?| | | |]; try destruct Bk; split; assumption).
    destruct (gap_step ns _ R b s1 G L1) as [s2 [E2 [L2 K]]]. exists s2. split.
    + apply (quiet_app h [b] s s1 s2 E1). cbn [quiet_run]. rewrite E2. reflexivity.
    + rewrite text_app. unfold text_of at 2. cbn [map concat]. rewrite app_nil_r, app_assoc. apply loose_between; [exact L2|exact (K Bk)].
Qed.

(** * The units and the end *)
Notation body_pair := (list (bytes * bytes) * option ubody)%type (only parsing).
Definition one_unit (ns : bytes) (p : element * list xev) : body_pair := (t_attrs (e_tag (fst p)), Some (unit_body ns (fst p))).

Lemma stopped_quiet n s k evs err t c : quiet sax n (sax_after (PAt s k (unit_rest t) evs err) c true).
Proof. unfold sax_after, resume, unit_rest. cbn [run_micros advance]. eapply quiet_fin. reflexivity. Qed.

(** One unit, from the call of startUnit. *)
Lemma unit_shows ns A R u s evs err vs e : unit_ok u -> ready ns A R u s ->
  (forall s', between ns (A ++ element_text u) R s' -> shows sax (advance evs err s') vs e) ->
  shows sax (PAt s (KUnit (t_attrs (e_tag u))) (unit_rest (e_tag u)) (e_content u ++ XEnd (t_name (e_tag u)) (e_end u) :: evs) err)
    ((t_attrs (e_tag u), Some (unit_body ns u)) :: vs) e.
Proof.
  intros Ok Rd Nx. assert (Bd : bad s = false) by apply Rd.
  apply shows_unit.
  - cbn [sax next sax_next]. rewrite Bd. reflexivity.
  - intros c. apply stopped_quiet.
  - intros c. cbn [sax after sax_after]. destruct c.
    + destruct (unit_collected ns A R u s evs err Ok Rd) as [s' [E [Bo [Bd' Bt]]]]. rewrite E.
      apply (inside_end _ _ _ _ (body_of s')).
      * cbn [sax next sax_next]. rewrite Bd'. reflexivity.
      * intros _. exact Bo.
      * cbn [sax after sax_after]. eapply quiet_fin. reflexivity.
      * cbn [sax after sax_after]. unfold resume. cbn [run_micros]. apply Nx. exact Bt.
    + destruct (unit_skipped ns A R u s evs err Ok Rd) as [s' [E [Bd' Bt]]]. rewrite E.
      apply (inside_end _ _ _ _ (body_of s')).
      * cbn [sax next sax_next]. rewrite Bd'. reflexivity.
      * intros F. discriminate F.
      * cbn [sax after sax_after]. eapply quiet_fin. reflexivity.
      * cbn [sax after sax_after]. unfold resume. cbn [run_micros]. apply Nx. exact Bt.
Qed.

Lemma units_show ns : forall us A R s evs err vs e, Forall (fun p => unit_ok (fst p) /\ gap (snd p)) us ->
  between ns A (text_of (units_events us) ++ R) s ->
  (forall s', between ns (A ++ text_of (units_events us)) R s' -> shows sax (advance evs err s') vs e) ->
  shows sax (advance (units_events us ++ evs) err s) (map (one_unit ns) us ++ vs) e.
Proof.
  induction us as [|[u g] us IH]; intros A R s evs err vs e F B Nx.
  - cbn in *. apply Nx. rewrite app_nil_r. exact B.
  - destruct (Forall_inv F) as [Ou Og]. cbn [fst snd] in Ou, Og.
    assert (T : text_of (units_events ((u, g) :: us)) = element_text u ++ text_of g ++ text_of (units_events us)).
    { unfold units_events. cbn [map concat fst snd]. rewrite !text_app. unfold element_text. rewrite app_assoc. reflexivity. }
    rewrite T in *. rewrite <- !app_assoc in B.
    assert (Ev : units_events ((u, g) :: us) ++ evs = XStart (e_tag u) :: e_content u ++ XEnd (t_name (e_tag u)) (e_end u) :: g ++ units_events us ++ evs).
    { unfold units_events. cbn [map concat fst snd]. unfold element_events. cbn [app]. rewrite <- !app_assoc. reflexivity. }
    rewrite Ev. destruct Ou as [Tg Ou]. pose proof Ou as [Bal [Con En]].
    destruct (unit_start ns A _ u s (e_content u ++ XEnd (t_name (e_tag u)) (e_end u) :: g ++ units_events us ++ evs) err Tg En B) as [s1 [E Rd]].
    rewrite E. cbn [map app]. apply (unit_shows ns A (text_of g ++ text_of (units_events us) ++ R) u); [exact (conj Tg Ou)|exact Rd|].
    intros s2 B2. destruct (gap_run ns g _ _ s2 Og B2) as [s3 [E3 B3]]. rewrite (advance_quiet g _ _ _ _ E3).
    apply (IH ((A ++ element_text u) ++ text_of g) R); [exact (Forall_inv_tail F)|exact B3|]. intros s4 B4. apply Nx. rewrite !app_assoc. exact B4.
Qed.

(** After the root: no calls. *)
Lemma trail_quiet : forall evs err s, Forall outside evs -> exists s', advance evs err s = PFin err s'.
Proof.
  induction evs as [|e r IH]; intros err s F; [exists s; reflexivity|]. pose proof (Forall_inv F) as E. specialize (IH err) as G. cbn [advance].
  destruct e as [t|nm raw|p raw text|raw value|raw value|raw|raw]; try destruct E; cbn [callback]; try destruct (on s); cbn [run_micros]; apply IH; exact (Forall_inv_tail F).
Qed.

Lemma root_end ns A R raw trail err s : Forall outside trail -> between ns A R s -> shows sax (advance (XEnd (txt "unit") raw :: trail) err s) [] true.
Proof.
  intros F [D [Cu [Ba [De [Sp [Cp [On [Ar [Rc [Rn Bd]]]]]]]]]]. cbn [advance callback app]. unfold end_element.
  replace (Sax_Model.collect s && (cur s + length raw <? base s)) with false by (symmetry; destruct (Sax_Model.collect s); [apply Nat.ltb_ge; lia|reflexivity]).
  rewrite De, Ar. unfold end_root. rewrite Rc. change (beqb (txt "unit") (txt "unit")) with true. cbn.
  apply shows_end.
  - cbn [sax next sax_next]. replace (bad (end_element_do (advance_by (length raw) s))) with false; [reflexivity|].
    sst_destruct s. fields. subst. destruct co0; reflexivity.
  - intros t. cbn [sax after sax_after]. unfold resume. cbn [run_micros]. destruct t; [eapply quiet_fin; reflexivity|].
    destruct (trail_quiet trail err (set_depth (pred (depth (end_element_do (advance_by (length raw) s)))) (end_element_do (advance_by (length raw) s))) F) as [s' ->]. eapply quiet_fin. reflexivity.
Qed.

(** Broken off in a unit. *)
Lemma cut_shows A R t p q raw s : unit_ok (Element t (p ++ q) raw) -> t_empty t = false ->
  doc s = A ++ t_raw t ++ ([62%N] ++ text_of p) ++ R -> cur s = length A + length (t_raw t) -> base s = S (cur s) -> depth s = 1 -> is_archive s = true ->
  bad s = false ->
  shows sax (PAt s (KUnit (t_attrs t)) (unit_rest t) p true) [(t_attrs t, None)] false.
Proof.
  intros [[Nm [Tg Cpp]] [Bal [Con En]]] Em D Cu Ba De Ar Bd. cbn [e_tag e_content e_end] in *.
  destruct (balanced_flat _ Bal 0) as [Fl Dp]. apply flat_pre in Fl. apply content_pre in Con.
  apply shows_unit.
  - cbn [sax next sax_next]. rewrite Bd. reflexivity.
  - intros c. apply stopped_quiet.
  - intros c. cbn [sax after sax_after]. sst_destruct s. fields. rewrite post_resume.
    assert (G : exists s', advance p true (Sst doc0 (cur0 + (if t_empty t then 0 else 1)) base0 (S depth0) (if c then SElement else SNone) (if c then CUnit else CNone) c ar0 c rc0 rt0 rns0 sr0 (if c then [] else sc0) 0 cb0 ce0 ib0 ie0 cpp0 bad0) = PFin true s' /\ bad s' = false).
    { rewrite Em. destruct c; cbn match.
      - set (f := Sst [] 0 0 0 SElement CNone false ar0 true rc0 rt0 rns0 [] [] 0 cb0 0 ib0 ie0 cpp0 bad0).
        assert (C0 : collecting f false (A ++ t_raw t ++ [62%N]) [] (text_of p ++ R) sr0 [] 0 (2 + 0)
          (Sst doc0 (cur0 + 1) base0 (S depth0) SElement CUnit true ar0 true rc0 rt0 rns0 sr0 [] 0 cb0 ce0 ib0 ie0 cpp0 bad0)).
        { exists ce0, (length (A ++ t_raw t ++ [62%N]) + 0), sr0. split; [|rewrite app_nil_r; split; reflexivity].
          assert (E1 : doc0 = (A ++ t_raw t ++ [62%N]) ++ [] ++ text_of p ++ R) by (rewrite D, <- !app_assoc; reflexivity).
          assert (E2 : cur0 + 1 = length (A ++ t_raw t ++ [62%N]) + 0) by (rewrite !app_length; cbn [length]; lia).
          assert (E3 : base0 = length (A ++ t_raw t ++ [62%N]) + 0) by (rewrite !app_length; cbn [length]; lia).
          rewrite E1, E2, E3, De. reflexivity. }
        destruct (collect_run f false Ar p false _ _ _ _ _ _ _ _ (or_introl eq_refl) C0 Con Fl) as [s1 [Q C1]].
        pose proof (advance_quiet p _ _ [] true Q) as E0. rewrite app_nil_r in E0. exists s1. split; [exact E0|].
        destruct C1 as [ce1 [b1 [x1 [-> _]]]]. exact Bd.
      - set (f := Sst [] 0 0 0 SNone CNone false ar0 true rc0 rt0 rns0 sr0 sc0 0 cb0 ce0 ib0 ie0 cpp0 bad0).
        assert (K0 : skipping f doc0 (cur0 + 1) (2 + 0) (Sst doc0 (cur0 + 1) base0 (S depth0) SNone CNone false ar0 false rc0 rt0 rns0 sr0 sc0 0 cb0 ce0 ib0 ie0 cpp0 bad0)).
        { exists base0. split; [lia|]. rewrite De. reflexivity. }
        destruct (skip_run f _ Ar p _ _ _ K0 Fl) as [s1 [Q [b1 [Le ->]]]].
        pose proof (advance_quiet p _ _ [] true Q) as E0. rewrite app_nil_r in E0. eexists. split; [exact E0|]. exact Bd. }
    destruct G as [s' [-> Bs]]. apply inside_error. cbn [sax next sax_next]. rewrite Bs. reflexivity.
Qed.
