(** C39: whole units. *)
From Verif Require Import Base Text_Model Text_Proofs Text_Proofs3 Api_Model Writer_Model Handoff_Model Handoff_Spec Sax_Model Sax_Spec Sax_Proofs.

Fixpoint depths (evs : list xev) (n : nat) : nat := match evs with [] => n | e :: r => depths r (depth_after e n) end.
Fixpoint pending (evs : list xev) (p : bool) : bool := match evs with [] => p | e :: r => pending r (opens e) end.
Lemma flat_cons solo e r n : flat solo n (e :: r) -> flat solo n [e] /\ flat solo (depth_after e n) r.
Proof. destruct e; cbn [flat depth_after]; try (intros F; split; [exact I|exact F]). destruct n as [|n]; [intros []|]. intros [A B]. split; [split; [exact A|exact I]|exact B]. Qed.
Lemma flat_join solo e r n : flat solo n [e] -> flat solo (depth_after e n) r -> flat solo n (e :: r).
Proof. destruct e; cbn [flat depth_after]; try (intros _ F; exact F). destruct n as [|n]; [intros []|]. intros [A _] B. exact (conj A B). Qed.
Lemma flat_app solo a : forall b n, flat solo n a -> flat solo (depths a n) b -> flat solo n (a ++ b).
Proof. induction a as [|e a IH]; intros b n F G; [exact G|]. apply flat_cons in F. destruct F as [F1 F2]. cbn [app]. apply flat_join; [exact F1|]. apply IH; [exact F2|exact G]. Qed.
Lemma flat_pre solo a : forall b n, flat solo n (a ++ b) -> flat solo n a.
Proof. induction a as [|e a IH]; intros b n F; [exact I|]. cbn [app] in F. apply flat_cons in F. destruct F as [F1 F2]. apply flat_join; [exact F1|]. exact (IH _ _ F2). Qed.
Lemma flat_suf solo a : forall b n, flat solo n (a ++ b) -> flat solo (depths a n) b.
Proof. induction a as [|e a IH]; intros b n F; [exact F|]. cbn [app] in F. apply flat_cons in F. destruct F as [F1 F2]. cbn [depths]. exact (IH _ _ F2). Qed.
Lemma depths_app a : forall b n, depths (a ++ b) n = depths b (depths a n).
Proof. induction a as [|e a IH]; intros b n; [reflexivity|]. apply IH. Qed.
Lemma content_pre a : forall b p, content_ok p (a ++ b) -> content_ok p a.
Proof. induction a as [|e a IH]; intros b p C; [exact I|]. destruct C as [E C]. split; [exact E|]. exact (IH _ _ C). Qed.
Lemma content_suf a : forall b p, content_ok p (a ++ b) -> content_ok (pending a p) b.
Proof. induction a as [|e a IH]; intros b p C; [exact C|]. destruct C as [E C]. exact (IH _ _ C). Qed.

Lemma balanced_flat evs : balanced evs -> forall n, flat false n evs /\ depths evs n = n.
Proof.
  induction 1 as [|e r L B IH|u r B IH E B' IH']; intros n.
  - split; [exact I|reflexivity].
  - destruct (IH n) as [F D]. destruct e; try destruct L; (split; [exact F|exact D]).
  - destruct (IH (S n)) as [F D]. destruct (IH' n) as [F' D']. unfold element_events. cbn [app]. rewrite <- app_assoc. cbn [app]. split.
    + cbn [flat]. apply flat_app; [exact F|]. rewrite D. cbn [flat]. split; [discriminate|exact F'].
    + cbn [depths depth_after]. rewrite depths_app, D. cbn [depths depth_after pred]. exact D'.
Qed.
(** Without elements called unit. *)
Definition no_unit (e : xev) : Prop := match e with XStart t => t_name t <> txt "unit" | XEnd n _ => n <> txt "unit" | _ => True end.
Lemma flat_solo evs : forall n, flat false n evs -> Forall no_unit evs -> flat true n evs.
Proof.
  induction evs as [|e r IH]; intros n F N; [exact I|]. apply flat_cons in F. destruct F as [F1 F2].
  apply flat_join; [|apply IH; [exact F2|exact (Forall_inv_tail N)]]. pose proof (Forall_inv N) as N1.
  destruct e; cbn [flat] in *; try exact I. destruct n; [exact F1|]. split; [intros _; exact N1|exact I].
Qed.

(** Collecting all of the content. *)
Lemma collect_run f solo : is_archive f = negb solo -> forall evs pend A0 A1 R P T l n s, sp f = SElement \/ Forall leaf evs ->
  collecting f pend A0 A1 (text_of evs ++ R) P T l ((if solo then 1 else 2) + n) s -> content_ok pend evs -> flat solo n evs ->
  exists s', quiet_run evs s = Some s' /\
    collecting f (pending evs pend) A0 (A1 ++ text_of evs) R P (T ++ content_text evs) (l + count_byte 10 (concat (map char_piece evs)))
      ((if solo then 1 else 2) + depths evs n) s'.
Proof.
  intros Ar. induction evs as [|e r IH]; intros pend A0 A1 R P T l n s Hs C O F.
  - exists s. split; [reflexivity|]. unfold content_text. cbn [text_of map concat depths pending count_byte filter length]. cbn. rewrite !app_nil_r, Nat.add_0_r. exact C.
  - destruct O as [Oe Or]. apply flat_cons in F. destruct F as [Fe Fr]. rewrite text_cons, <- app_assoc in C.
    destruct (collect_step f solo pend A0 A1 (text_of r ++ R) P T l n e s Ar (match Hs with or_introl H => or_introl H | or_intror H => or_intror (Forall_inv H) end) C Oe Fe) as [s1 [R1 C1]].
    destruct (IH _ _ _ _ _ _ _ _ _ (match Hs with or_introl H => or_introl H | or_intror H => or_intror (Forall_inv_tail H) end) C1 Or Fr) as [s2 [R2 C2]].
    exists s2. split; [cbn [quiet_run]; rewrite R1; exact R2|]. cbn [pending depths]. unfold content_text in *. cbn [map concat]. rewrite count_byte_app.
    rewrite text_cons. rewrite (app_assoc A1), (app_assoc T), (Nat.add_assoc l). exact C2.
Qed.

(** Skipping it. *)
Definition skipping (f : sst) (D : bytes) (c n : nat) (s : sst) : Prop :=
  exists b, b <= c /\ s = Sst D c b n SNone CNone false (is_archive f) false (rootcalled f) (root f) (rootns f) (srcml f) (src f) (loc f) (cbegin f) (cend f) (ibegin f) (iend f) (cpp_prefix f) (bad f).
Lemma skip_step f D c n e s : is_archive f = true -> skipping f D c (2 + n) s -> flat false n [e] ->
  exists s', run_micros (callback e s) s = (s', None) /\ skipping f D (c + length (xtext e)) (2 + depth_after e n) s'.
Proof.
  intros Ar [b [L ->]] F. destruct e as [t|nm raw|[|] raw text|raw value|raw value|raw|raw]; cbn [xtext depth_after].
  - eexists. split; [reflexivity|]. norm. exists b. split; [rewrite app_length; lia|].
    rewrite app_length, Nat.add_assoc. destruct (t_empty t); reflexivity.
  - cbn [callback app]. unfold end_element. cbn [andb Sax_Model.collect].
    cbn [flat] in F. destruct n as [|n]; [destruct F|].
    match goal with |- context [MDo end_element_do :: ?X] => replace X with (@nil micro) end.
    + eexists. split; [reflexivity|]. unfold end_element_do. norm. eexists. split; [apply Nat.le_refl|]. reflexivity.
    + cbn [depth is_archive]. rewrite Ar. destruct (beqb nm (txt "unit")); [|reflexivity]. reflexivity.
  - eexists. split; [reflexivity|]. unfold characters. norm. exists b. split; [lia|reflexivity].
  - eexists. split; [reflexivity|]. unfold characters. norm. exists b. split; [lia|reflexivity].
  - eexists. split; [reflexivity|]. norm. exists b. split; [lia|reflexivity].
  - eexists. split; [reflexivity|]. norm. exists b. split; [lia|reflexivity].
  - eexists. split; [reflexivity|]. norm. exists b. split; [lia|reflexivity].
  - eexists. split; [reflexivity|]. norm. exists b. split; [lia|reflexivity].
Qed.
Lemma skip_run f D : is_archive f = true -> forall evs c n s, skipping f D c (2 + n) s -> flat false n evs ->
  exists s', quiet_run evs s = Some s' /\ skipping f D (c + length (text_of evs)) (2 + depths evs n) s'.
Proof.
  intros Ar. induction evs as [|e r IH]; intros c n s K F.
  - exists s. split; [reflexivity|]. cbn. rewrite Nat.add_0_r. exact K.
  - apply flat_cons in F. destruct F as [Fe Fr]. destruct (skip_step f D c n e s Ar K Fe) as [s1 [R1 K1]].
    destruct (IH _ _ _ K1 Fr) as [s2 [R2 K2]]. exists s2. split; [cbn [quiet_run]; rewrite R1; exact R2|].
    cbn [depths]. rewrite text_cons, app_length, Nat.add_assoc. exact K2.
Qed.

(** * Between the units of an archive *)
Definition between (ns A R : bytes) (s : sst) : Prop :=
  doc s = A ++ R /\ cur s = length A /\ base s = length A /\ depth s = 1 /\ sp s = SUnit /\ cp s = CRoot /\ on s = collect s /\
  is_archive s = true /\ rootcalled s = true /\ rootns s = ns /\ bad s = false.
(** At the call of startUnit. *)
Definition ready (ns A R : bytes) (u : element) (s : sst) : Prop :=
  doc s = A ++ element_text u ++ R /\ cur s = length A + length (t_raw (e_tag u)) /\ base s = S (cur s) /\ depth s = 1 /\
  is_archive s = true /\ rootcalled s = true /\ rootns s = ns /\ bad s = false /\
  srcml s = tag_head (e_tag u) ++ ns ++ tag_tail (e_tag u) ++ [if t_empty (e_tag u) then 47%N else 62%N] /\
  cbegin s = length (tag_head (e_tag u)) + length ns + length (tag_tail (e_tag u)) + 1 /\
  ibegin s = length (tag_head (e_tag u)) /\ iend s = length (tag_head (e_tag u)) + length ns.
(** What is left of the callback then. *)
Definition unit_rest (t : tag) : list micro :=
  [MDo start_unit_post; MDo (fun s => set_depth (S (depth s)) (advance_by (if t_empty t then 0 else 1) s))].

Lemma element_text_split u : element_text u = t_raw (e_tag u) ++ element_rest u.
Proof. unfold element_text, element_events, element_rest. rewrite text_cons, text_app. cbn [xtext]. rewrite <- app_assoc. cbn [text_of map concat xtext]. unfold text_of at 2. cbn [map concat xtext]. rewrite app_nil_r. reflexivity. Qed.

Ltac sst_destruct s := destruct s as [doc0 cur0 base0 depth0 sp0 cp0 on0 ar0 co0 rc0 rt0 rns0 sr0 sc0 lc0 cb0 ce0 ib0 ie0 cpp0 bad0].
Ltac fields := cbn [doc cur base depth sp cp on is_archive collect rootcalled root rootns srcml src loc cbegin cend ibegin iend cpp_prefix bad] in *.

Lemma length1 {A} (x : A) : length [x] = 1. Proof. reflexivity. Qed.

(** The end of a unit in an archive: the call, and what follows it. *)
Lemma unit_end_call nm raw s evs err : nm = txt "unit" -> depth s = 2 -> is_archive s = true -> (collect s = true -> base s <= cur s + length raw) ->
  advance (XEnd nm raw :: evs) err s =
  PAt (end_element_do (advance_by (length raw) s)) KEnd [MDo (fun s => set_ptr SUnit CRoot (on s) s); MDo (fun s => set_depth (pred (depth s)) s)] evs err.
Proof.
  intros -> D Ar Le. cbn [advance callback app]. unfold end_element.
  replace (Sax_Model.collect s && (cur s + length raw <? base s)) with false.
  - cbv zeta. rewrite D, Ar. change (beqb (txt "unit") (txt "unit")) with true. reflexivity.
  - symmetry. destruct (Sax_Model.collect s); [|reflexivity]. cbn [andb]. apply Nat.ltb_ge. exact (Le eq_refl).
Qed.

(** The updates, explicitly. *)
Lemma end_do_collect k d c b n p q o a rc rt rn x t l cb e ib ie pp bd :
  end_element_do (advance_by k (Sst d c b n p q o a true rc rt rn x t l cb e ib ie pp bd)) =
  Sst d (c + k) (c + k) n p q o a true rc rt rn (x ++ slice d b (c + k)) t l cb (S (length x)) ib ie pp bd.
Proof. reflexivity. Qed.
Lemma end_do_skip k d c b n p q o a rc rt rn x t l cb e ib ie pp bd :
  end_element_do (advance_by k (Sst d c b n p q o a false rc rt rn x t l cb e ib ie pp bd)) =
  Sst d (c + k) (c + k) n p q o a false rc rt rn x t l cb e ib ie pp bd.
Proof. reflexivity. Qed.
Lemma post_resume t evs err wanted d c b n p q o a co rc rt rn x tx l cb e ib ie pp bd :
  resume (unit_rest t) evs err (set_text x tx 0 (set_collecting wanted (Sst d c b n p q o a co rc rt rn x tx l cb e ib ie pp bd))) =
  advance evs err (Sst d (c + if t_empty t then 0 else 1) b (S n) (if wanted then SElement else SNone) (if wanted then CUnit else CNone) wanted a wanted rc rt rn x (if wanted then [] else tx) 0 cb e ib ie pp bd).
Proof. destruct wanted; reflexivity. Qed.
Lemma after_end d c b n p q o a co rc rt rn x tx l cb e ib ie pp bd :
  let s := Sst d c b n p q o a co rc rt rn x tx l cb e ib ie pp bd in
  set_depth (pred (depth s)) (set_ptr SUnit CRoot (on s) s) = Sst d c b (pred n) SUnit CRoot o a co rc rt rn x tx l cb e ib ie pp bd.
Proof. reflexivity. Qed.

Lemma pending_balanced evs : balanced evs -> pending evs false = false.
Proof.
  assert (G : forall evs, balanced evs -> forall p, evs <> [] -> pending evs p = false).
  { assert (PA : forall a b p, pending (a ++ b) p = pending b (pending a p)) by (induction a as [|e a IH]; intros b p; [reflexivity|apply IH]).
    induction 1 as [|e r L B IH|u r B IH E B' IH']; intros p N.
    - contradiction N; reflexivity.
    - destruct r as [|e' r']; [destruct e; try destruct L; reflexivity|]. apply (IH (opens e)). discriminate.
    - unfold element_events. rewrite PA. destruct r as [|e' r']; [|apply (IH' _); discriminate]. cbn [pending app]. rewrite PA. reflexivity. }
  intros B. destruct evs as [|e r]; [reflexivity|]. apply (G _ B). discriminate.
Qed.

Lemma rest_empty t con raw : t_empty t = true -> end_ok t con raw -> element_rest (Element t con raw) = txt "/>" /\ con = [] /\ raw = txt "/>".
Proof. intros E K. unfold end_ok in K. rewrite E in K. destruct K as [-> ->]. unfold element_rest. cbn [e_tag e_content e_end]. rewrite E. repeat split. Qed.
Lemma rest_open t con raw : t_empty t = false -> element_rest (Element t con raw) = [62%N] ++ text_of con ++ raw.
Proof. intros E. unfold element_rest. cbn [e_tag e_content e_end]. rewrite E. reflexivity. Qed.

(** From startUnit with the body wanted. *)
Lemma unit_collected ns A R u s evs err : unit_ok u -> ready ns A R u s ->
  exists s', resume (unit_rest (e_tag u)) (e_content u ++ XEnd (t_name (e_tag u)) (e_end u) :: evs) err (set_text (srcml s) (src s) 0 (set_collecting true s))
    = PAt s' KEnd [MDo (fun s => set_ptr SUnit CRoot (on s) s); MDo (fun s => set_depth (pred (depth s)) s)] evs err
    /\ body_of s' = unit_body ns u /\ bad s' = false
    /\ between ns (A ++ element_text u) R (set_depth (pred (depth s')) (set_ptr SUnit CRoot (on s') s')).
Proof.
  intros [[Nm [Tg Cpp]] [Bal [Con En]]] Rd. destruct u as [t con raw]. cbn [e_tag e_content e_end] in *.
  unfold ready in Rd. cbn [e_tag e_content e_end] in Rd. destruct Rd as [D [Cu [Ba [De [Ar [Rc [Rn [Bd [Sr [Cb [Ib Ie]]]]]]]]]]].
  rewrite element_text_split in D. cbn [e_tag] in D.
  destruct (balanced_flat con Bal 0) as [Fl Dp].
  sst_destruct s. fields. rewrite post_resume. cbn match.
  destruct (t_empty t) eqn:Em.
  - destruct (rest_empty t con raw Em En) as [Er [-> ->]]. rewrite Er in D. cbn [app].
    rewrite unit_end_call; [|exact Nm|fields; lia|exact Ar|intros _; fields; change (length (txt "/>")) with 2; lia].
    rewrite end_do_collect. eexists. split; [reflexivity|].
    assert (Sl : slice doc0 base0 (cur0 + 0 + length (txt "/>")) = [62%N]).
    { apply (slice_at (A ++ t_raw t ++ [47%N]) [62%N] R); [rewrite D, <- !app_assoc; reflexivity|rewrite !app_length; cbn [length]; lia|rewrite !app_length; change (length (txt "/>")) with 2; cbn [length]; lia]. }
    rewrite Sl. split; [|split; [exact Bd|]].
    + unfold body_of, unit_body, element_in. rewrite Er. fields. cbn [e_tag e_content e_end].
      change (content_text []) with (@nil N). change (content_lines []) with 0. change (length (text_of [])) with 0. cbn match.
      rewrite Sr, Cb, Ib, Ie. rewrite !app_length, <- !app_assoc. cbn [length app]. f_equal. f_equal. lia.
    + rewrite after_end. unfold between. fields. rewrite element_text_split, Er. cbn [e_tag].
      rewrite !app_length, <- !app_assoc. change (length (txt "/>")) with 2. rewrite De. repeat split; try assumption; try lia; rewrite ?D, <- !app_assoc; reflexivity.
  - assert (Er := rest_open t con raw Em). rewrite Er in D.
    set (f := Sst [] 0 0 0 SElement CNone false ar0 true rc0 rt0 rns0 [] [] 0 cb0 0 ib0 ie0 cpp0 bad0).
    assert (C0 : collecting f false (A ++ t_raw t ++ [62%N]) [] (text_of con ++ raw ++ R) sr0 [] 0 (2 + 0)
      (Sst doc0 (cur0 + 1) base0 (S depth0) SElement CUnit true ar0 true rc0 rt0 rns0 sr0 [] 0 cb0 ce0 ib0 ie0 cpp0 bad0)).
    { exists ce0, (length (A ++ t_raw t ++ [62%N]) + 0), sr0. split; [|rewrite app_nil_r; split; reflexivity].
      assert (E1 : doc0 = (A ++ t_raw t ++ [62%N]) ++ [] ++ text_of con ++ raw ++ R) by (rewrite D, <- !app_assoc; reflexivity).
      assert (E2 : cur0 + 1 = length (A ++ t_raw t ++ [62%N]) + 0) by (rewrite !app_length; cbn [length]; lia).
      assert (E3 : base0 = length (A ++ t_raw t ++ [62%N]) + 0) by (rewrite !app_length; cbn [length]; lia).
      rewrite E1, E2, E3, De. reflexivity. }
    destruct (collect_run f false Ar con false _ _ _ _ _ _ _ _ (or_introl eq_refl) C0 Con Fl) as [s1 [Q C1]].
    rewrite (advance_quiet con _ _ (XEnd (t_name t) raw :: evs) err Q). rewrite Dp, (pending_balanced con Bal) in C1. cbn [app] in C1.
    destruct C1 as [ce1 [b1 [x1 [-> [-> ->]]]]]. unfold cst. cbn [Nat.add]. subst f. fields.
    rewrite unit_end_call; [|exact Nm|reflexivity|exact Ar|intros _; fields; lia].
    rewrite end_do_collect. eexists. split; [reflexivity|].
    match goal with |- context [slice ?d ?a ?b] => assert (Sl : slice d a b = raw) end.
    { apply (slice_at ((A ++ t_raw t ++ [62%N]) ++ text_of con) raw R); [rewrite <- !app_assoc; reflexivity|rewrite (app_length _ (text_of con)); reflexivity|rewrite (app_length _ (text_of con)); reflexivity]. }
    rewrite Sl. split; [|split; [exact Bd|]].
    + unfold unit_body, element_in, content_lines, body_of. rewrite Er. fields. cbn [e_tag e_content e_end].
      rewrite Sr, Cb, Ib, Ie. rewrite !app_length, <- !app_assoc. cbn [length app]. f_equal.
      * destruct (content_text con) as [|c0 r0]; [lia|]. destruct (N.eqb (last (c0 :: r0) 0%N) 10); lia.
      * f_equal. lia.
    + rewrite after_end. unfold between. fields. rewrite element_text_split, Er. cbn [e_tag].
      rewrite !app_length, <- !app_assoc. cbn [length]. repeat split; try assumption; try lia; rewrite ?D, <- !app_assoc; reflexivity.
Qed.

(** From startUnit without. *)
Lemma unit_skipped ns A R u s evs err : unit_ok u -> ready ns A R u s ->
  exists s', resume (unit_rest (e_tag u)) (e_content u ++ XEnd (t_name (e_tag u)) (e_end u) :: evs) err (set_text (srcml s) (src s) 0 (set_collecting false s))
    = PAt s' KEnd [MDo (fun s => set_ptr SUnit CRoot (on s) s); MDo (fun s => set_depth (pred (depth s)) s)] evs err
    /\ bad s' = false
    /\ between ns (A ++ element_text u) R (set_depth (pred (depth s')) (set_ptr SUnit CRoot (on s') s')).
Proof.
  intros [[Nm [Tg Cpp]] [Bal [Con En]]] Rd. destruct u as [t con raw]. cbn [e_tag e_content e_end] in *.
  unfold ready in Rd. cbn [e_tag e_content e_end] in Rd. destruct Rd as [D [Cu [Ba [De [Ar [Rc [Rn [Bd [Sr [Cb [Ib Ie]]]]]]]]]]].
  rewrite element_text_split in D. cbn [e_tag] in D.
  destruct (balanced_flat con Bal 0) as [Fl Dp].
  sst_destruct s. fields. rewrite post_resume. cbn match.
  destruct (t_empty t) eqn:Em.
  - destruct (rest_empty t con raw Em En) as [Er [-> ->]]. rewrite Er in D. cbn [app].
    rewrite unit_end_call; [|exact Nm|fields; lia|exact Ar|intros F; discriminate F].
    rewrite end_do_skip. eexists. split; [reflexivity|]. split; [exact Bd|].
    rewrite after_end. unfold between. fields. rewrite element_text_split, Er. cbn [e_tag].
    rewrite !app_length, <- !app_assoc. change (length (txt "/>")) with 2. rewrite De. repeat split; try assumption; try lia; rewrite ?D, <- !app_assoc; reflexivity.
  - assert (Er := rest_open t con raw Em). rewrite Er in D.
    set (f := Sst [] 0 0 0 SNone CNone false ar0 true rc0 rt0 rns0 sr0 sc0 0 cb0 ce0 ib0 ie0 cpp0 bad0).
    assert (K0 : skipping f doc0 (cur0 + 1) (2 + 0)
       (Sst doc0 (cur0 + 1) base0 (S depth0) SNone CNone false ar0 false rc0 rt0 rns0 sr0 sc0 0 cb0 ce0 ib0 ie0 cpp0 bad0)).
    { exists base0. split; [lia|]. rewrite De. reflexivity. }
    destruct (skip_run f _ Ar con _ _ _ K0 Fl) as [s1 [Q [b1 [Le ->]]]].
    rewrite (advance_quiet con _ _ (XEnd (t_name t) raw :: evs) err Q). rewrite Dp. subst f. fields.
    rewrite unit_end_call; [|exact Nm|reflexivity|exact Ar|intros F; discriminate F].
    rewrite end_do_skip. eexists. split; [reflexivity|]. split; [exact Bd|].
    rewrite after_end. unfold between. fields. rewrite element_text_split, Er. cbn [e_tag].
    rewrite !app_length, <- !app_assoc. cbn [length]. repeat split; try assumption; try lia; rewrite ?D, <- !app_assoc; reflexivity.
Qed.
