(** C39, C27: documents of one unit; the slices of what was read. *)
From Verif Require Import Base Text_Model Text_Proofs Text_Proofs3 Api_Model Writer_Model Writer_Spec Writer_Proofs2 Handoff_Model Handoff_Spec Sax_Model Sax_Spec Sax_Proofs Sax_Proofs2 Sax_Proofs3 Sax_Proofs4.

(** * Passing over the content of a document that is one unit, not wanted *)
Definition ignoring (f : sst) (D : bytes) (c n : nat) (s : sst) : Prop :=
  exists b, b <= c /\ s = Sst D c b n SElement CUnit true false false true (root f) (rootns f) (srcml f) (src f) (loc f) (cbegin f) (cend f) (ibegin f) (iend f) (cpp_prefix f) (bad f).
Lemma ignore_step f D c n e s : ignoring f D c (1 + n) s -> event_ok false e \/ event_ok true e -> flat true n [e] ->
  exists s', run_micros (callback e s) s = (s', None) /\ ignoring f D (c + length (xtext e)) (1 + depth_after e n) s'.
Proof.
  intros [b [L ->]] Ev F. destruct e as [t|nm raw|[|] raw text|raw value|raw value|raw|raw]; cbn [xtext depth_after].
  - eexists. split; [reflexivity|]. unfold start_element_do. norm. eexists. split; [|rewrite app_length, Nat.add_assoc; destruct (t_empty t); reflexivity]. rewrite app_length. lia.
  - cbn [callback app]. unfold end_element. cbn [andb Sax_Model.collect].
    cbn [flat] in F. destruct n as [|n]; [destruct F|]. destruct F as [Nu _]. specialize (Nu eq_refl).
    match goal with |- context [MDo end_element_do :: ?X] => replace X with (@nil micro) end.
    + eexists. split; [reflexivity|]. unfold end_element_do. norm. eexists. split; [apply Nat.le_refl|]. reflexivity.
    + destruct (beqb nm (txt "unit")) eqn:Q; [|reflexivity]. apply beqb_true in Q. contradiction (Nu Q).
  - eexists. split; [reflexivity|]. unfold characters. norm. exists b. split; [lia|reflexivity].
  - eexists. split; [reflexivity|]. unfold characters. norm. exists b. split; [lia|reflexivity].
  - eexists. split; [reflexivity|]. unfold comment. norm. eexists. split; [apply Nat.le_refl|reflexivity].
  - eexists. split; [reflexivity|]. norm. exists b. split; [lia|reflexivity].
  - eexists. split; [reflexivity|]. norm. exists b. split; [lia|reflexivity].
  - destruct Ev as [[]|[]].
Qed.
Lemma ignore_run f D : forall evs p c n s, ignoring f D c (1 + n) s -> content_ok p evs -> flat true n evs ->
  exists s', quiet_run evs s = Some s' /\ ignoring f D (c + length (text_of evs)) (1 + depths evs n) s'.
Proof.
  induction evs as [|e r IH]; intros p c n s K O F.
  - exists s. split; [reflexivity|]. cbn. rewrite Nat.add_0_r. exact K.
  - apply flat_cons in F. destruct F as [Fe Fr]. destruct O as [Oe Or].
    destruct (ignore_step f D c n e s K) as [s1 [R1 K1]]; [destruct p; [right|left]; exact Oe|exact Fe|].
    destruct (IH _ _ _ _ K1 Or Fr) as [s2 [R2 K2]]. exists s2. split; [cbn [quiet_run]; rewrite R1; exact R2|].
    cbn [depths]. rewrite text_cons, app_length, Nat.add_assoc. exact K2.
Qed.

(** * The end of the root *)
Definition root_rest (s : sst) : list micro := [MDo (fun s => set_ptr SUnit CRoot (on s) s); MEndRoot; MDo (fun s => set_depth (pred (depth s)) s)].
Lemma solo_end_call nm raw s evs err : nm = txt "unit" -> depth s = 1 -> is_archive s = false -> rootcalled s = true -> (collect s = true -> base s <= cur s + length raw) ->
  advance (XEnd nm raw :: evs) err s = PAt (end_element_do (advance_by (length raw) s)) KEnd (root_rest s) evs err.
Proof.
  intros -> D Ar Rc Le. cbn [advance callback app]. unfold end_element.
  replace (Sax_Model.collect s && (cur s + length raw <? base s)) with false.
  - cbv zeta. unfold end_root. rewrite D, Ar, Rc. change (beqb (txt "unit") (txt "unit")) with true. reflexivity.
  - symmetry. destruct (Sax_Model.collect s); [|reflexivity]. cbn [andb]. apply Nat.ltb_ge. exact (Le eq_refl).
Qed.
Lemma solo_inside c b s0 s trail err : Forall outside trail -> bad s = false -> (c = true -> body_of s = b) ->
  inside sax (PAt s KEnd (root_rest s0) trail err) c (Some b) [] true.
Proof.
  intros Tr Bd Bo. assert (Bd2 : forall o, bad (set_ptr SUnit CRoot o s) = false) by (intros o; destruct s; exact Bd).
  apply (inside_end _ _ _ _ (body_of s)).
  - cbn [sax next sax_next]. rewrite Bd. reflexivity.
  - exact Bo.
  - cbn [sax after sax_after]. unfold root_rest, resume. cbn [run_micros]. apply quiet_root.
    + cbn [sax next sax_next]. rewrite Bd2. reflexivity.
    + intros t. eapply quiet_fin. destruct t; reflexivity.
  - cbn [sax after sax_after]. unfold root_rest, resume. cbn [run_micros]. apply shows_end.
    + cbn [sax next sax_next]. rewrite Bd2. reflexivity.
    + intros t. cbn [sax after sax_after]. unfold resume. cbn [run_micros]. destruct t; [eapply quiet_fin; reflexivity|].
      match goal with |- context [advance trail err ?X] => destruct (trail_quiet trail err X Tr) as [s' ->] end. eapply quiet_fin. reflexivity.
Qed.

(** * The unit *)
Lemma solo_lines T l : (match T with [] => l | _ :: _ => if N.eqb (last T 0%N) 10 then l else S l end) = l + match T with [] => 0 | _ :: _ => if N.eqb (last T 0%N) 10 then 0 else 1 end.
Proof. destruct T as [|c r]; [lia|]. destruct (N.eqb (last (c :: r) 0%N) 10); lia. Qed.

Lemma text_leaves evs : Forall leaf evs -> forall n, flat true n evs /\ depths evs n = n.
Proof.
  induction evs as [|e r IH]; intros F n; [split; [exact I|reflexivity]|]. pose proof (Forall_inv F) as L. destruct (IH (Forall_inv_tail F) n) as [A B].
  destruct e; try destruct L; (split; [exact A|exact B]).
Qed.
Lemma depths_solo a b n : flat false n (a ++ b) -> Forall leaf a -> depths b n = depths (a ++ b) n.
Proof. intros _ F. rewrite depths_app. rewrite (proj2 (text_leaves a F n)). reflexivity. Qed.
Lemma element_text_open t con raw : t_empty t = false -> element_text (Element t con raw) = (t_raw t ++ [62%N]) ++ text_of con ++ raw.
Proof. intros E. rewrite element_text_split, rest_open by exact E. cbn [e_tag]. rewrite <- app_assoc. reflexivity. Qed.

(** The state at the end of the content, collected. *)
Lemma solo_collected f lead t con raw R l s tx :
  collecting f false (lead ++ t_raw t ++ [62%N]) (text_of con) (raw ++ R) (t_raw t ++ [62%N]) tx l 1 s ->
  t_empty t = false -> cbegin f = length (t_raw t) + 1 -> ibegin f = length (tag_head t) -> iend f = solo_insert_end (t_raw t ++ [62%N]) -> bad f = false ->
  base s <= cur s + length raw /\ depth s = 1 /\ is_archive s = is_archive f /\ rootcalled s = rootcalled f /\ root s = root f /\ collect s = true /\
  bad (end_element_do (advance_by (length raw) s)) = false /\
  src (end_element_do (advance_by (length raw) s)) = tx /\ loc (end_element_do (advance_by (length raw) s)) = l /\
  srcml (end_element_do (advance_by (length raw) s)) = element_text (Element t con raw) /\
  cbegin (end_element_do (advance_by (length raw) s)) = length (t_raw t) + 1 /\
  cend (end_element_do (advance_by (length raw) s)) = length (t_raw t) + 1 + length (text_of con) + 1 /\
  ibegin (end_element_do (advance_by (length raw) s)) = length (tag_head t) /\
  iend (end_element_do (advance_by (length raw) s)) = solo_insert_end (firstn (length (t_raw t) + 1) (element_text (Element t con raw))).
Proof.
  intros [ce [b [x [-> [-> ->]]]]] Em Cb Ib Ie Bd. unfold cst. rewrite end_do_collect. fields.
  rewrite (element_text_open t con raw Em).
  replace (firstn (length (t_raw t) + 1) ((t_raw t ++ [62%N]) ++ text_of con ++ raw)) with (t_raw t ++ [62%N])
    by (rewrite firstn_app, app_length; cbn [length]; rewrite Nat.sub_diag; cbn [firstn]; rewrite app_nil_r, firstn_all2; [reflexivity|rewrite app_length; cbn [length]; lia]).
  match goal with |- context [slice ?d ?a ?b] => assert (Sl : slice d a b = raw) end.
  { apply (slice_at ((lead ++ t_raw t ++ [62%N]) ++ text_of con) raw R); [rewrite <- !app_assoc; reflexivity|rewrite (app_length _ (text_of con)); reflexivity|rewrite (app_length _ (text_of con)); reflexivity]. }
  rewrite Sl. rewrite !app_length. cbn [length]. repeat split; try assumption; try lia. rewrite <- !app_assoc. reflexivity.
Qed.

Lemma solo_body_eq d s : t_empty (s_tag d) = false -> src s = content_text (s_text d ++ s_rest d) -> loc s = count_byte 10 (concat (map char_piece (s_rest d))) ->
  srcml s = element_text (solo_element d) -> cbegin s = length (t_raw (s_tag d)) + 1 -> cend s = length (t_raw (s_tag d)) + 1 + length (text_of (s_text d ++ s_rest d)) + 1 ->
  ibegin s = length (tag_head (s_tag d)) -> iend s = solo_insert_end (firstn (length (t_raw (s_tag d)) + 1) (element_text (solo_element d))) -> body_of s = solo_body d.
Proof.
  intros Em Sc Lc Sr Cb Ce Ib Ie. unfold body_of, solo_body. cbn [solo_element e_content]. rewrite Sc, Lc, Sr, Cb, Ce, Ib, Ie, solo_lines. destruct (content_text (s_text d ++ s_rest d)); reflexivity.
Qed.

Lemma solo_begins_open d err : solo_ok d -> t_empty (s_tag d) = false ->
  exists k, k <= 2 /\ begins sax k (parse (solo_events d) err) [(t_attrs (s_tag d), Some (solo_body d))] true.
Proof.
  intros [Le [La [Ok [Lf [Fst [Nu Tr]]]]]] Em. pose proof Ok as [Tg [Bal [Con En]]]. unfold parse. set (evs := solo_events d).
  cbn [solo_element e_tag e_content e_end] in Tg, Bal, Con, En.
  pose (t := s_tag d). pose (con := s_text d ++ s_rest d). pose (raw := s_end d).
  assert (Nm : t_name t = txt "unit") by apply Tg.
  assert (Tx : text_of evs = text_of (s_lead d) ++ t_raw t ++ [62%N] ++ text_of con ++ raw ++ text_of (s_trail d)).
  { subst evs. unfold solo_events. rewrite !text_app. f_equal. change (text_of (element_events (solo_element d))) with (element_text (Element t con raw)).
    rewrite (element_text_open t con raw Em), <- !app_assoc. reflexivity. }
  assert (L0 : leading [] (text_of (s_lead d) ++ t_raw t ++ [62%N] ++ text_of con ++ raw ++ text_of (s_trail d)) (sax_init (text_of evs))).
  { unfold leading. rewrite Tx. cbn. repeat split. lia. }
  destruct (lead_run (s_lead d) [] _ _ Le L0) as [s1 [E1 [L1 B1]]].
  assert (B1' : base s1 = cur s1) by (apply B1; destruct (s_lead d); [reflexivity|exact La]). clear B1.
  assert (Ev : evs = s_lead d ++ XStart t :: s_text d ++ s_rest d ++ XEnd (t_name t) raw :: s_trail d).
  { subst evs. unfold solo_events, element_events. cbn [solo_element e_tag e_content e_end app]. rewrite <- !app_assoc. reflexivity. }
  clear L0. generalize dependent (sax_init (text_of evs)). intros s0 E1. rewrite Ev. rewrite (advance_quiet (s_lead d) _ _ _ _ E1). clear E1.
  destruct (root_run t _ _ _ Tg Em L1) as [s2 [E2 [O2 [Rt [Sc Mk]]]]]. destruct (Mk B1') as [Sr [Cb [Ib Ie]]]. clear Mk. cbn [advance]. rewrite E2. clear E2.
  (* the text before the first element *)
  destruct O2 as [D [Cu [Ba [De [Sp [Cp [On [Co [Ar [Rc [Rn Bd]]]]]]]]]]].
  set (A0 := ([] ++ text_of (s_lead d)) ++ t_raw t ++ [62%N]) in *.
  destruct (balanced_flat _ Bal 0) as [Fl Dp]. destruct (text_leaves _ Lf 0) as [Fl1 Dp1].
  assert (C0 : collecting s2 false A0 [] (text_of (s_text d) ++ text_of (s_rest d) ++ raw ++ text_of (s_trail d)) (t_raw t ++ [62%N]) [] (loc s2) (1 + 0) s2).
  { exists (cend s2), (length A0 + 0), (t_raw t ++ [62%N]). split; [|rewrite app_nil_r; split; reflexivity].
    assert (E1 : doc s2 = A0 ++ [] ++ text_of (s_text d) ++ text_of (s_rest d) ++ raw ++ text_of (s_trail d)) by (rewrite D; subst con; rewrite text_app, <- !app_assoc; reflexivity).
    unfold cst. rewrite Nat.add_0_r, <- E1, Nat.add_0_r. clear -Cu Ba De Cp On Co Sr Sc. sst_destruct s2. fields. subst. reflexivity. }
  destruct (collect_run s2 true Ar (s_text d) false _ _ _ _ _ _ _ _ (or_intror Lf) C0 (content_pre _ _ _ Con) Fl1) as [s3 [E3 C3]].
  rewrite (advance_quiet (s_text d) _ _ _ _ E3). clear E3 C0. rewrite Dp1 in C3. cbn [app] in C3.
  assert (Pn : pending (s_text d) false = false).
  { clear -Lf. assert (G : forall p, p = false -> pending (s_text d) p = false); [|apply G; reflexivity].
    induction (s_text d) as [|e r IH]; intros p Hp; [exact Hp|]. cbn [pending]. apply (IH (Forall_inv_tail Lf)). pose proof (Forall_inv Lf) as L. destruct e; try destruct L; reflexivity. }
  rewrite Pn in C3. pose proof (content_suf _ _ _ Con) as Con2. rewrite Pn in Con2.
  assert (FlR : flat true 0 (s_rest d)).
  { apply flat_solo; [|exact Nu]. pose proof (flat_suf false (s_text d) (s_rest d) 0 Fl) as F. rewrite Dp1 in F. exact F. }
  assert (DpR : depths (s_rest d) 0 = 0) by (rewrite depths_app, Dp1 in Dp; exact Dp).
  assert (Tc : text_of con = text_of (s_text d) ++ text_of (s_rest d)) by apply text_app.
  assert (Cc : content_text con = content_text (s_text d) ++ content_text (s_rest d)) by (subst con; unfold content_text; rewrite map_app, concat_app; reflexivity).
  destruct (s_rest d) as [|e rest] eqn:Rs.
  - (* no element: the root is called at its end *)
    exists 2. split; [lia|]. cbn [app] in *. change (text_of []) with (@nil N) in *. rewrite app_nil_r in Tc, Cc. cbn [app] in C3. rewrite <- Tc, <- Cc in C3.
    set (l3 := loc s2 + count_byte 10 (concat (map char_piece (s_text d)))) in C3.
    destruct (solo_collected s2 ([] ++ text_of (s_lead d)) t con raw (text_of (s_trail d)) l3 s3 _ C3 Em Cb Ib Ie Bd) as [B3 [D3 [A3 [R3 [T3 [K3 [Bd3 [Sc3 [Lc3 [Sr3 [Cb3 [Ce3 [Ib3 Ie3]]]]]]]]]]]]].
    cbn [advance callback app]. unfold end_element. rewrite K3.
    replace (true && (cur s3 + length raw <? base s3)) with false by (symmetry; cbn [andb]; apply Nat.ltb_ge; exact B3).
    cbv zeta. unfold end_root, reparse_root. rewrite D3, A3, R3, Ar, Rc, Nm, T3, Rt. change (beqb (txt "unit") (txt "unit")) with true. cbn [orb negb Nat.eqb app end_unit run_micros].
    set (s4 := end_element_do (advance_by (length raw) s3)) in *.
    apply (begins_end _ 1 _ (body_of s4)); [cbn [sax next sax_next]; rewrite Bd3; reflexivity|].
    cbn [sax after sax_after]. unfold resume. cbn [run_micros].
    assert (Bd4 : bad (set_archive (is_archive (set_ptr SUnit CRoot (on s4) s4)) true (set_ptr SUnit CRoot (on s4) s4)) = false) by (destruct s4; exact Bd3).
    apply begins_root; [cbn [sax next sax_next]; rewrite Bd4; reflexivity|]. cbn [sax after sax_after]. unfold resume. cbn [run_micros].
    apply begins_units. apply shows_unit.
    + cbn [sax next sax_next]. rewrite Bd4. reflexivity.
    + intros c. cbn [sax after sax_after]. unfold resume. cbn [run_micros]. eapply quiet_end.
      * cbn [sax next sax_next]. match goal with |- (if bad ?X then _ else _) = _ => replace (bad X) with false by (destruct s4; symmetry; exact Bd3) end. reflexivity.
      * intros tt. destruct tt; cbn [sax after sax_after]; unfold resume; cbn [run_micros]; apply quiet_root.
        -- cbn [sax next sax_next]. match goal with |- (if bad ?X then _ else _) = _ => replace (bad X) with false by (destruct s4; symmetry; exact Bd3) end. reflexivity.
        -- intros tt2. eapply quiet_fin. destruct tt2; reflexivity.
        -- cbn [sax next sax_next]. match goal with |- (if bad ?X then _ else _) = _ => replace (bad X) with false by (destruct s4; symmetry; exact Bd3) end. reflexivity.
        -- intros tt2. eapply quiet_fin. destruct tt2; reflexivity.
    + intros c. cbn [sax after sax_after]. unfold resume. cbn [run_micros].
      match goal with |- inside sax (PAt ?X _ _ _ _) _ _ _ _ => set (s5 := X) end.
      assert (F5 : bad s5 = false /\ src s5 = src s4 /\ loc s5 = 0 /\ srcml s5 = srcml s4 /\ cbegin s5 = cbegin s4 /\ cend s5 = cend s4 /\ ibegin s5 = ibegin s4 /\ iend s5 = iend s4)
        by (subst s5; clear -Bd3; destruct s4; fields; repeat split; exact Bd3).
      destruct F5 as [F1 [F2 [F3 [F4 [F5 [F6 [F7 F8]]]]]]].
      apply (inside_end _ _ _ _ (body_of s5)).
      * cbn [sax next sax_next]. rewrite F1. reflexivity.
      * intros _. apply solo_body_eq; rewrite ?Rs; try assumption; rewrite ?F2, ?F3, ?F4, ?F5, ?F6, ?F7, ?F8; try assumption; try (rewrite app_nil_r; assumption); try reflexivity;
          unfold solo_element; rewrite ?Rs, ?app_nil_r; subst con; rewrite app_nil_r in *; assumption.
      * cbn [sax after sax_after]. unfold resume. cbn [run_micros]. apply quiet_root; [cbn [sax next sax_next]; rewrite F1; reflexivity|].
        intros tt2. eapply quiet_fin. destruct tt2; reflexivity.
      * cbn [sax after sax_after]. unfold resume. cbn [run_micros]. apply shows_end; [cbn [sax next sax_next]; rewrite F1; reflexivity|].
        intros tt. cbn [sax after sax_after]. unfold resume. cbn [run_micros]. destruct tt; [eapply quiet_fin; reflexivity|].
        match goal with |- context [advance (s_trail d) err ?X] => destruct (trail_quiet (s_trail d) err X Tr) as [s' ->] end. eapply quiet_fin. reflexivity.
  - (* at the first element *)
    exists 1. split; [lia|]. destruct e as [te| | | | | |]; try (exfalso; exact Fst).
    destruct C3 as [ce3 [b3 [x3 [-> [-> ->]]]]]. unfold cst.
    set (l3 := loc s2 + count_byte 10 (concat (map char_piece (s_text d)))).
    cbn [app advance callback]. fields. rewrite Sp. unfold first_start_element.
    replace (beqb (t_name te) (txt "macro-list")) with false by (destruct (beqb (t_name te) (txt "macro-list")) eqn:Q; [apply beqb_true in Q; contradiction (Fst Q)|reflexivity]).
    replace (beqb (t_name te) (txt "unit")) with false
      by (destruct (beqb (t_name te) (txt "unit")) eqn:Q; [apply beqb_true in Q; contradiction (Forall_inv Nu Q)|reflexivity]).
    cbn [app reparse_root run_micros]. fields. rewrite Rt.
    set (f := Sst [] 0 0 0 SElement CUnit true false true true (t_attrs t) (rootns s2) [] [] 0 (cbegin s2) 0 (ibegin s2) (iend s2) (cpp_prefix s2) (bad s2)).
    match goal with |- begins sax 1 (PAt ?X _ _ _ _) _ _ => replace X with
      (Sst (A0 ++ text_of (s_text d) ++ text_of (XStart te :: rest) ++ raw ++ text_of (s_trail d)) (length A0 + length (text_of (s_text d)) + length (t_raw te)) (length A0 + length (text_of (s_text d))) 1 SElement CUnit true false true true (t_attrs t) (rootns s2) ((t_raw t ++ [62%N]) ++ text_of (s_text d)) (content_text (s_text d)) l3 (cbegin s2) ce3 (ibegin s2) (iend s2) (cpp_prefix s2) (bad s2)) end.
    2:{ rewrite <- Rt. reflexivity. }
    apply begins_root; [cbn [sax next sax_next]; fields; rewrite Bd; reflexivity|]. cbn [sax after sax_after]. unfold resume. cbn [run_micros].
    apply begins_units. apply shows_unit.
    + cbn [sax next sax_next]. fields. rewrite Bd. reflexivity.
    + intros c. cbn [sax after sax_after]. unfold resume. cbn [run_micros advance]. eapply quiet_fin. reflexivity.
    + intros c. cbn [sax after sax_after].
      match goal with |- inside sax (resume ?ms ?ev ?er ?X) _ _ _ _ => replace (resume ms ev er X) with
        (advance (XStart te :: rest ++ XEnd (t_name t) raw :: s_trail d) err
           (Sst (A0 ++ text_of (s_text d) ++ text_of (XStart te :: rest) ++ raw ++ text_of (s_trail d)) (length A0 + length (text_of (s_text d))) (length A0 + length (text_of (s_text d))) 1 SElement CUnit true false c true (t_attrs t) (rootns s2) ((t_raw t ++ [62%N]) ++ text_of (s_text d)) (content_text (s_text d)) 0 (cbegin s2) ce3 (ibegin s2) (iend s2) (cpp_prefix s2) (bad s2))) end.
      2:{ reflexivity. }
      destruct c.
      * assert (C4 : collecting f false A0 (text_of (s_text d)) (text_of (XStart te :: rest) ++ raw ++ text_of (s_trail d)) (t_raw t ++ [62%N]) (content_text (s_text d)) 0 (1 + 0)
           (Sst (A0 ++ text_of (s_text d) ++ text_of (XStart te :: rest) ++ raw ++ text_of (s_trail d)) (length A0 + length (text_of (s_text d))) (length A0 + length (text_of (s_text d))) 1 SElement CUnit true false true true (t_attrs t) (rootns s2) ((t_raw t ++ [62%N]) ++ text_of (s_text d)) (content_text (s_text d)) 0 (cbegin s2) ce3 (ibegin s2) (iend s2) (cpp_prefix s2) (bad s2))).
        { exists ce3, (length A0 + length (text_of (s_text d))), ((t_raw t ++ [62%N]) ++ text_of (s_text d)). split; [reflexivity|split; reflexivity]. }
        destruct (collect_run f true eq_refl (XStart te :: rest) false _ _ _ _ _ _ _ _ (or_introl eq_refl) C4 Con2 FlR) as [s5 [E5 C5]].
        pose proof (advance_quiet (XStart te :: rest) _ _ (XEnd (t_name t) raw :: s_trail d) err E5) as E6. cbn [app] in E6. rewrite E6. clear E6.
        rewrite DpR in C5. change (text_of (XStart te :: rest)) with (text_of (XStart te :: rest)) in C5. rewrite <- Tc, <- Cc in C5.
        assert (Pc : pending (XStart te :: rest) false = false).
        { pose proof (pending_balanced _ Bal) as Q. assert (PA : forall a b p, pending (a ++ b) p = pending b (pending a p)) by (induction a as [|e0 a IH]; intros b0 p; [reflexivity|apply IH]).
          rewrite PA, Pn in Q. exact Q. }
        rewrite Pc in C5.
        destruct (solo_collected f ([] ++ text_of (s_lead d)) t con raw (text_of (s_trail d)) _ s5 _ C5 Em Cb Ib Ie Bd) as [B3 [D3 [A3 [R3 [T3 [K3 [Bd3 [Sc3 [Lc3 [Sr3 [Cb3 [Ce3 [Ib3 Ie3]]]]]]]]]]]]].
        rewrite (solo_end_call _ raw s5 (s_trail d) err Nm D3 A3 R3 (fun _ => B3)).
        apply solo_inside; [exact Tr|exact Bd3|]. intros _.
        apply solo_body_eq; rewrite ?Rs; try assumption; unfold solo_element; rewrite ?Rs; assumption.
      * assert (I4 : ignoring (Sst [] 0 0 0 SElement CUnit true false true true (t_attrs t) (rootns s2) ((t_raw t ++ [62%N]) ++ text_of (s_text d)) (content_text (s_text d)) 0 (cbegin s2) ce3 (ibegin s2) (iend s2) (cpp_prefix s2) (bad s2))
           (A0 ++ text_of (s_text d) ++ text_of (XStart te :: rest) ++ raw ++ text_of (s_trail d)) (length A0 + length (text_of (s_text d))) (1 + 0)
           (Sst (A0 ++ text_of (s_text d) ++ text_of (XStart te :: rest) ++ raw ++ text_of (s_trail d)) (length A0 + length (text_of (s_text d))) (length A0 + length (text_of (s_text d))) 1 SElement CUnit true false false true (t_attrs t) (rootns s2) ((t_raw t ++ [62%N]) ++ text_of (s_text d)) (content_text (s_text d)) 0 (cbegin s2) ce3 (ibegin s2) (iend s2) (cpp_prefix s2) (bad s2))).
        { eexists. split; [apply Nat.le_refl|reflexivity]. }
        destruct (ignore_run _ _ (XStart te :: rest) false _ _ _ I4 Con2 FlR) as [s5 [E5 [b5 [Lb ->]]]].
        pose proof (advance_quiet (XStart te :: rest) _ _ (XEnd (t_name t) raw :: s_trail d) err E5) as E6. cbn [app] in E6. rewrite E6. clear E6.
        rewrite DpR. rewrite solo_end_call; [|exact Nm|reflexivity|reflexivity|reflexivity|intros Q; discriminate Q].
        apply solo_inside; [exact Tr|rewrite end_do_skip; exact Bd|intros Q; discriminate Q].
Qed.
