(** C39, C27: an empty root; the slices of what was read; results for the properties. *)
From Verif Require Import Base Text_Model Text_Spec Text_Proofs Text_Proofs2 Text_Proofs3 Api_Model Writer_Model Writer_Spec Writer_Proofs2 Handoff_Model Handoff_Spec Handoff_Proofs3 Sax_Model Sax_Spec Sax_Proofs Sax_Proofs2 Sax_Proofs3 Sax_Proofs4 Sax_Proofs5.

Lemma solo_begins_empty d err : solo_ok d -> t_empty (s_tag d) = true ->
  begins sax 1 (parse (solo_events d) err) [(t_attrs (s_tag d), Some (solo_body d))] true.
Proof.
  intros [Le [La [Ok [Lf [Fst [Nu Tr]]]]]] Em. pose proof Ok as [Tg [Bal [Con En]]]. unfold parse. set (evs := solo_events d).
  cbn [solo_element e_tag e_content e_end] in Tg, Bal, Con, En. pose (t := s_tag d).
  destruct (rest_empty _ _ _ Em En) as [Er [Ec Ee]].
  assert (Nm : t_name t = txt "unit") by apply Tg.
  assert (Et : element_text (solo_element d) = t_raw t ++ txt "/>") by (rewrite element_text_split; unfold solo_element; rewrite Er; reflexivity).
  assert (Tx : text_of evs = text_of (s_lead d) ++ t_raw t ++ txt "/>" ++ text_of (s_trail d)).
  { subst evs. unfold solo_events. rewrite !text_app. f_equal. change (text_of (element_events (solo_element d))) with (element_text (solo_element d)). rewrite Et, <- app_assoc. reflexivity. }
  assert (L0 : leading [] (text_of (s_lead d) ++ t_raw t ++ txt "/>" ++ text_of (s_trail d)) (sax_init (text_of evs))).
  { unfold leading. rewrite Tx. cbn. repeat split. lia. }
  destruct (lead_run (s_lead d) [] _ _ Le L0) as [s1 [E1 [L1 B1]]].
  assert (B1' : base s1 = cur s1) by (apply B1; destruct (s_lead d); [reflexivity|exact La]). clear B1.
  assert (Ev : evs = s_lead d ++ XStart t :: XEnd (t_name t) (txt "/>") :: s_trail d).
  { subst evs. unfold solo_events, element_events. cbn [solo_element e_tag e_content e_end app]. rewrite Ec, Ee. reflexivity. }
  clear L0. generalize dependent (sax_init (text_of evs)). intros s0 E1. rewrite Ev. rewrite (advance_quiet (s_lead d) _ _ _ _ E1). clear E1.
  destruct L1 as [D [Cu [Ba [De [Sp [Cp [On [Co [Ar [Rc [Rn Bd]]]]]]]]]]]. cbn [app] in D, Cu, Ba. set (A := text_of (s_lead d)) in *.
  pose proof (tag_length t Tg) as Lt. sst_destruct s1. fields. subst cur0 base0 depth0 sp0 cp0 on0 co0 ar0 rc0 rns0 bad0.
  cbn [advance callback]. fields. unfold start_root. assert (Em' : t_empty t = true) by exact Em. change (t_empty (s_tag d)) with (t_empty t). rewrite Em'. cbn [app start_unit run_micros].
  apply begins_root; [reflexivity|]. cbn [sax after sax_after]. unfold resume. cbn [run_micros].
  match goal with |- context [start_unit_pre t ?X] => replace X with
    (Sst doc0 (length A + length (t_raw t)) (length A) 0 SRoot CUnit true false true true (t_attrs t) (root_namespaces t) sr0 sc0 lc0 cb0 ce0 ib0 ie0 cpp0 false) by reflexivity end.
  edestruct pre_solo as [pp' E]; [exact Tg| |rewrite E; clear E]; [change (s_tag d) with t; lia|].
  assert (S1 : slice doc0 (length A) (length A + name_end t) = tag_head t).
  { destruct Tg as [_ [Tg _]]. apply (slice_at A (tag_head t) (tag_tail t ++ txt "/>" ++ text_of (s_trail d))); [rewrite D; change (t_raw t) with (t_raw (s_tag d)); rewrite Tg at 1; rewrite <- !app_assoc; reflexivity|reflexivity|rewrite head_length; reflexivity]. }
  assert (S2 : slice doc0 (length A + name_end t) (length A + length (t_raw t) + 1) = tag_tail t ++ [47%N]).
  { destruct Tg as [_ [Tg _]]. apply (slice_at (A ++ tag_head t) (tag_tail t ++ [47%N]) ([62%N] ++ text_of (s_trail d)));
      [rewrite D; change (t_raw t) with (t_raw (s_tag d)); rewrite Tg at 1; rewrite <- !app_assoc; reflexivity
      |rewrite app_length, head_length; reflexivity|assert (Ln := f_equal (@length N) Tg); rewrite app_length in Ln; change (s_tag d) with t in Ln; rewrite !app_length; cbn [length]; rewrite head_length in *; lia]. }
  change (s_tag d) with t. rewrite S1, S2. assert (Hd : tag_head t ++ tag_tail t ++ [47%N] = t_raw t ++ [47%N]) by (destruct Tg as [_ [Tg _]]; change (s_tag d) with t in Tg; rewrite app_assoc, <- Tg; reflexivity).
  rewrite Hd.
  apply begins_units. apply shows_unit.
  - reflexivity.
  - intros c. eapply quiet_fin. reflexivity.
  - intros c. cbn [sax after sax_after]. unfold resume. cbn [run_micros].
    match goal with |- context [advance _ _ ?X] => replace X with
      (Sst doc0 (length A + length (t_raw t)) (S (length A + length (t_raw t))) 1 SFirst CUnit true false c true (t_attrs t) (root_namespaces t) (t_raw t ++ [47%N]) [] 0 (length (t_raw t ++ [47%N])) ce0 (length (tag_head t)) (solo_insert_end (t_raw t ++ [47%N])) pp' false) end.
    2:{ unfold advance_by, set_pos, set_depth. cbn. rewrite Nat.add_0_r. reflexivity. }
    rewrite solo_end_call; [|exact Nm|reflexivity|reflexivity|reflexivity|intros _; fields; change (length (txt "/>")) with 2; lia].
    apply solo_inside; [exact Tr|destruct c; reflexivity|]. intros ->. rewrite end_do_collect.
    rewrite (slice_at (A ++ t_raw t ++ [47%N]) [62%N] (text_of (s_trail d)));
      [|rewrite D, <- !app_assoc; reflexivity|rewrite !app_length; cbn [length]; lia|rewrite !app_length; change (length (txt "/>")) with 2; cbn [length]; lia].
    unfold body_of, solo_body. fields. fold t. rewrite Et. unfold solo_element. cbn [e_content].
    rewrite Ec. destruct (app_eq_nil _ _ Ec) as [_ ->]. change (content_text []) with (@nil N). change (text_of []) with (@nil N). cbn [length map concat].
    replace (firstn (length (t_raw t) + 1) (t_raw t ++ txt "/>")) with (t_raw t ++ [47%N]).
    + rewrite !app_length, <- app_assoc. cbn [length app]. rewrite Nat.add_0_r, Nat.add_1_r. f_equal. f_equal. lia.
    + rewrite firstn_app, firstn_all2 by lia. replace (length (t_raw t) + 1 - length (t_raw t)) with 1 by lia. reflexivity.
Qed.
Lemma solo_begins d err : solo_ok d -> exists k, k <= 2 /\ begins sax k (parse (solo_events d) err) [(t_attrs (s_tag d), Some (solo_body d))] true.
Proof.
  intros O. destruct (t_empty (s_tag d)) eqn:Em; [exists 1; split; [lia|]; exact (solo_begins_empty d err O Em)|exact (solo_begins_open d err O Em)].
Qed.

(** * Slices *)
Lemma substr_tail a b n : (0 <= n)%Z -> (n = Z.of_nat (length b))%Z -> substr (a ++ b) (Z.of_nat (length a)) n = Ok b.
Proof.
  intros P ->. unfold substr. replace (Z.of_nat (length a) <? 0)%Z with false by (symmetry; apply Z.ltb_ge; lia).
  rewrite app_length. replace (Z.of_nat (length a + length b) <? Z.of_nat (length a))%Z with false by (symmetry; apply Z.ltb_ge; lia). cbn [orb].
  replace (Z.of_nat (length b) <? 0)%Z with false by (symmetry; apply Z.ltb_ge; lia). rewrite !Nat2Z.id.
  rewrite skipn_app, Nat.sub_diag, skipn_all. cbn [app skipn]. rewrite firstn_all. reflexivity.
Qed.
Lemma substr_head a b : substr (a ++ b) 0 (Z.of_nat (length a)) = Ok a.
Proof.
  unfold substr. rewrite app_length. replace (Z.of_nat (length a + length b) <? 0)%Z with false by (symmetry; apply Z.ltb_ge; lia).
  replace (Z.of_nat (length a) <? 0)%Z with false by (symmetry; apply Z.ltb_ge; lia). cbn [orb Z.ltb Z.compare Z.to_nat skipn]. rewrite Nat2Z.id.
  rewrite firstn_app, Nat.sub_diag, firstn_all. cbn [firstn]. rewrite app_nil_r. reflexivity.
Qed.

Lemma inner_slice x a b c u : uo_srcml u = a ++ b ++ c -> uo_content u = (Z.of_nat (length a), Z.of_nat (length a + length b + 1)) -> b = x -> inner u = Ok x.
Proof.
  intros S C <-. unfold inner. rewrite S, C. cbn [fst snd].
  replace (Z.of_nat (length a + length b + 1) - Z.of_nat (length a) - 1)%Z with (Z.of_nat (length b)) by lia.
  destruct b as [|y b]; [reflexivity|]. replace (Z.of_nat (length (y :: b)) <=? 0)%Z with false by (symmetry; apply Z.leb_gt; cbn [length]; lia).
  replace (Z.of_nat (length a) <? 0)%Z with false by (symmetry; apply Z.ltb_ge; lia).
  replace (Z.of_nat (length (a ++ (y :: b) ++ c)) <? Z.of_nat (length a))%Z with false by (symmetry; apply Z.ltb_ge; rewrite app_length; lia). cbn [orb].
  rewrite !Nat2Z.id. rewrite skipn_app, Nat.sub_diag, skipn_all. cbn [app skipn]. change (y :: b ++ c) with ((y :: b) ++ c). rewrite firstn_app, Nat.sub_diag, firstn_all. cbn [firstn]. rewrite app_nil_r. reflexivity.
Qed.

(** The search for the url attribute stays in the start tag. *)
Lemma contains_sub a b p : contains a p -> contains (a ++ b) p.
Proof. intros [x [y ->]]. exists x, (y ++ b). rewrite <- !app_assoc. reflexivity. Qed.
Lemma strchr_before s c n : strchr s c = Some n -> forall a b, s = a ++ c :: b -> n <= length a.
Proof.
  revert n. induction s as [|x s IH]; intros n E a b Q; [destruct a; discriminate Q|]. cbn [strchr] in E. destruct (x =? c)%N eqn:K; [injection E as <-; lia|].
  destruct (strchr s c) as [m|] eqn:M; [|discriminate E]. injection E as <-. destruct a as [|y a]; injection Q as <- Q; [rewrite N.eqb_refl in K; discriminate K|].
  cbn [length]. specialize (IH m eq_refl a b Q). lia.
Qed.
Lemma no_url s a b : s = a ++ 62%N :: b -> ~ contains a (txt " url=") ->
  match strchr s 62 with None => None | Some pos => match strstr (firstn pos s) (txt " url=") with None => None | Some p => Some (Z.of_nat p, match strchr (skipn (p + 6) (firstn pos s)) 34 with Some q => (Z.of_nat (p + 6 + q) + 1)%Z | None => 0%Z end) end end = None.
Proof.
  intros S Nc. destruct (strchr s 62) as [n|] eqn:E; [|reflexivity]. pose proof (strchr_before s 62%N n E a b S) as L.
  rewrite strstr_none; [reflexivity|discriminate|]. intros [x [y C]]. apply Nc. exists x, (y ++ skipn n a).
  rewrite S, firstn_app in C. replace (n - length a) with 0 in C by lia. cbn [firstn] in C. rewrite app_nil_r in C.
  rewrite <- (firstn_skipn n a) at 1. rewrite C, <- !app_assoc. reflexivity.
Qed.
Lemma outer_slice x u a b c a' b' : uo_srcml u = a ++ b ++ c -> uo_insert u = (Z.of_nat (length a), Z.of_nat (length a + length b)) ->
  a ++ b ++ c = a' ++ 62%N :: b' -> ~ contains a' (txt " url=") -> a ++ c = x -> outer u = Ok x.
Proof.
  intros S I Sp Nc <-. unfold outer. rewrite S, I. cbn [fst snd]. rewrite (no_url _ a' b' Sp Nc). rewrite substr_head. cbn [obind].
  rewrite (app_assoc a b c). rewrite <- app_length. rewrite substr_tail; [reflexivity|rewrite !app_length; lia|rewrite !app_length; lia].
Qed.

Lemma unit_body_inner ns u o : Sax_Spec.unit_ok u -> inner (with_body o (unit_body ns u)) = Ok (text_of (e_content u)).
Proof.
  intros [Tg [Bal [Con En]]]. destruct (rest_head u En) as [r Er].
  unfold with_body, set_content. eapply (inner_slice _ (tag_head (e_tag u) ++ ns ++ tag_tail (e_tag u) ++ [if t_empty (e_tag u) then 47%N else 62%N]) (text_of (e_content u)) (if t_empty (e_tag u) then [62%N] else e_end u));
    [|unfold unit_body; cbn [uo_content b_content fst snd]; rewrite !app_length; cbn [length]; f_equal; f_equal; lia|reflexivity].
  cbn [uo_srcml unit_body b_srcml]. unfold element_in, element_rest. unfold end_ok in En.
  destruct (t_empty (e_tag u)); [destruct En as [Ec Ee]; rewrite Ec, Ee; change (text_of []) with (@nil N); rewrite <- !app_assoc; cbn [app]; reflexivity|].
  rewrite <- !app_assoc. reflexivity.
Qed.
Lemma unit_body_outer ns u o : Sax_Spec.unit_ok u -> ~ contains (tag_head (e_tag u) ++ ns ++ tag_tail (e_tag u)) (txt " url=") ->
  outer (with_body o (unit_body ns u)) = Ok (element_text u).
Proof.
  intros [Tg [Bal [Con En]]] Nc. destruct Tg as [_ [Tg _]].
  assert (K : exists a' b', tag_head (e_tag u) ++ ns ++ tag_tail (e_tag u) ++ element_rest u = a' ++ 62%N :: b' /\ ~ contains a' (txt " url=")).
  { unfold element_rest. unfold end_ok in En. destruct (t_empty (e_tag u)).
    - destruct En as [Ec Ee]. exists (tag_head (e_tag u) ++ ns ++ tag_tail (e_tag u) ++ [47%N]), []. rewrite Ec, Ee. change (text_of []) with (@nil N). rewrite <- !app_assoc. split; [reflexivity|].
      intros [x [y C]]. apply Nc. rewrite !app_assoc in C. destruct y as [|z y] using rev_ind.
      + rewrite app_nil_r in C. change (txt " url=") with ([32; 117; 114; 108]%N ++ [61]%N) in C. rewrite !app_assoc in C. apply app_inj_tail in C. destruct C as [_ C]. discriminate C.
      + clear IHy. rewrite !app_assoc in C. apply app_inj_tail in C. destruct C as [C _]. exists x, y. rewrite !app_assoc. exact C.
    - exists (tag_head (e_tag u) ++ ns ++ tag_tail (e_tag u)), (text_of (e_content u) ++ e_end u). rewrite <- !app_assoc. split; [reflexivity|exact Nc]. }
  destruct K as [a' [b' [K1 K2]]].
  eapply (outer_slice _ _ (tag_head (e_tag u)) ns (tag_tail (e_tag u) ++ element_rest u) a' b'); [reflexivity|reflexivity|exact K1|exact K2|].
  rewrite element_text_split, Tg at 1. rewrite <- app_assoc. reflexivity.
Qed.
Lemma solo_body_inner d o : solo_ok d -> inner (with_body o (solo_body d)) = Ok (text_of (s_text d ++ s_rest d)).
Proof.
  intros [_ [_ [Ok _]]]. destruct Ok as [Tg [Bal [Con En]]]. cbn [solo_element e_tag e_content e_end] in *.
  unfold with_body, set_content. eapply (inner_slice _ (t_raw (s_tag d) ++ [if t_empty (s_tag d) then 47%N else 62%N]) (text_of (s_text d ++ s_rest d)) (if t_empty (s_tag d) then [62%N] else s_end d));
    [|unfold solo_body; cbn [uo_content b_content fst snd solo_element e_content]; rewrite !app_length; cbn [length]; f_equal; f_equal; lia|reflexivity].
  cbn [uo_srcml solo_body b_srcml]. rewrite element_text_split. unfold element_rest, solo_element. cbn [e_tag e_content e_end]. unfold end_ok in En.
  destruct (t_empty (s_tag d)); [destruct En as [Ec Ee]; rewrite Ec, Ee; change (text_of []) with (@nil N); rewrite <- !app_assoc; reflexivity|].
  rewrite <- !app_assoc. reflexivity.
Qed.
(** A lone unit: the outer form drops its first namespace declaration. *)
Lemma solo_body_outer d o p v more : solo_ok d -> t_prefix (s_tag d) = None ->
  tag_tail (s_tag d) = txt "xmlns" ++ p ++ [34%N] ++ v ++ [34%N; 32%N] ++ more -> no_byte 34 p -> no_byte 34 v ->
  ~ contains (t_raw (s_tag d)) (txt " url=") ->
  outer (with_body o (solo_body d)) = Ok (txt "<unit " ++ more ++ element_rest (solo_element d)).
Proof.
  intros [_ [_ [Ok _]]] Pf Tl Np Nv Nc. destruct Ok as [Tg [Bal [Con En]]]. cbn [solo_element e_tag e_content e_end] in *. destruct Tg as [Nm [Tg _]].
  set (u := solo_element d) in *.
  assert (Hd : tag_head (s_tag d) = txt "<unit ") by (unfold tag_head, qname; rewrite Pf, Nm; reflexivity).
  destruct (rest_head u En) as [r Er]. set (y := if t_empty (e_tag u) then 47%N else 62%N) in *.
  assert (Et : element_text u = txt "<unit " ++ txt "xmlns" ++ p ++ [34%N] ++ v ++ [34%N; 32%N] ++ more ++ y :: r).
  { rewrite element_text_split, Er. change (e_tag u) with (s_tag d). rewrite Tg at 1. rewrite Hd, Tl, <- !app_assoc. reflexivity. }
  assert (Ft : firstn (length (t_raw (s_tag d)) + 1) (element_text u) = txt "<unit " ++ txt "xmlns" ++ p ++ [34%N] ++ v ++ [34%N; 32%N] ++ more ++ [y]).
  { rewrite element_text_split, Er. change (e_tag u) with (s_tag d). rewrite firstn_app, firstn_all2 by lia. replace (length (t_raw (s_tag d)) + 1 - length (t_raw (s_tag d))) with 1 by lia. cbn [firstn].
    rewrite Tg at 1. rewrite Hd, Tl, <- !app_assoc. reflexivity. }
  assert (Ie : solo_insert_end (firstn (length (t_raw (s_tag d)) + 1) (element_text u)) = 6 + length (txt "xmlns" ++ p ++ [34%N] ++ v ++ [34%N; 32%N])).
  { rewrite Ft. unfold solo_insert_end. change (strstr (txt "<unit " ++ txt "xmlns" ++ p ++ [34%N] ++ v ++ [34%N; 32%N] ++ more ++ [y]) (txt "xmlns")) with (Some 6). cbn [next_pos].
    unfold find_quote. change (skipn 7 (txt "<unit " ++ txt "xmlns" ++ p ++ [34%N] ++ v ++ [34%N; 32%N] ++ more ++ [y])) with (txt "mlns" ++ p ++ [34%N] ++ v ++ [34%N; 32%N] ++ more ++ [y]).
    assert (Q1 : strchr (txt "mlns" ++ p ++ [34%N] ++ v ++ [34%N; 32%N] ++ more ++ [y]) 34 = Some (4 + length p)).
    { rewrite (app_assoc (txt "mlns")). change ([34%N] ++ v ++ [34%N; 32%N] ++ more ++ [y]) with (34%N :: v ++ [34%N; 32%N] ++ more ++ [y]).
      rewrite strchr_app; [rewrite app_length; reflexivity|]. apply Forall_app. split; [repeat constructor; discriminate|exact Np]. }
    rewrite Q1. cbn [option_map next_pos].
    assert (Q2 : skipn (S (7 + (4 + length p))) (txt "<unit " ++ txt "xmlns" ++ p ++ [34%N] ++ v ++ [34%N; 32%N] ++ more ++ [y]) = v ++ 34%N :: [32%N] ++ more ++ [y]).
    { replace (txt "<unit " ++ txt "xmlns" ++ p ++ [34%N] ++ v ++ [34%N; 32%N] ++ more ++ [y]) with ((txt "<unit " ++ txt "xmlns" ++ p ++ [34%N]) ++ v ++ 34%N :: [32%N] ++ more ++ [y]) by (rewrite <- !app_assoc; reflexivity).
      assert (Ln : length (txt "<unit " ++ txt "xmlns" ++ p ++ [34%N]) = S (7 + (4 + length p))) by (rewrite !app_length; cbn [length]; change (length (txt "<unit ")) with 6; change (length (txt "xmlns")) with 5; lia).
      rewrite <- Ln. rewrite skipn_app, Nat.sub_diag, skipn_all. reflexivity. }
    rewrite Q2, strchr_app by exact Nv. cbn [option_map]. rewrite !app_length. cbn [length]. change (length (txt "xmlns")) with 5. lia. }
  assert (K : exists a' b', element_text u = a' ++ 62%N :: b' /\ ~ contains a' (txt " url=")).
  { rewrite element_text_split. change (e_tag u) with (s_tag d). unfold element_rest, u, solo_element. cbn [e_tag e_content e_end]. unfold end_ok in En. destruct (t_empty (s_tag d)).
    - destruct En as [Ec Ee]. exists (t_raw (s_tag d) ++ [47%N]), []. rewrite Ec, Ee. change (text_of []) with (@nil N). rewrite <- !app_assoc. split; [reflexivity|].
      intros [x [z C]]. apply Nc. rewrite !app_assoc in C. destruct z as [|z w] using rev_ind.
      + rewrite app_nil_r in C. change (txt " url=") with ([32; 117; 114; 108]%N ++ [61]%N) in C. rewrite !app_assoc in C. apply app_inj_tail in C. destruct C as [_ C]. discriminate C.
      + clear IHw. rewrite !app_assoc in C. apply app_inj_tail in C. destruct C as [C _]. exists x, w. rewrite !app_assoc. exact C.
    - exists (t_raw (s_tag d)), (text_of (s_text d ++ s_rest d) ++ s_end d). split; [reflexivity|exact Nc]. }
  destruct K as [a' [b' [K1 K2]]].
  eapply (outer_slice _ _ (txt "<unit ") (txt "xmlns" ++ p ++ [34%N] ++ v ++ [34%N; 32%N]) (more ++ element_rest u) a' b').
  - cbn [with_body set_content uo_srcml solo_body b_srcml]. fold u. rewrite Et, Er, <- !app_assoc. reflexivity.
  - cbn [with_body set_content uo_insert solo_body b_insert fst snd]. fold u. rewrite Ie, Hd. reflexivity.
  - rewrite <- K1, Et, Er, <- !app_assoc. reflexivity.
  - exact K2.
  - reflexivity.
Qed.

(** * Lines *)
Lemma lines_of evs : Forall (fun e => match e with XCData _ v => count_byte 10 v = 0 | XStart t => t_name t = txt "escape" -> forall n v a, t_attrs t = (n, v) :: a -> read_escape v <> 10%N | _ => True end) evs ->
  count_byte 10 (concat (map char_piece evs)) = count_byte 10 (content_text evs).
Proof.
  unfold content_text. induction evs as [|e r IH]; intros F; [reflexivity|]. cbn [map concat]. rewrite !count_byte_app, (IH (Forall_inv_tail F)). f_equal.
  pose proof (Forall_inv F) as K. destruct e as [t|nm raw|p raw text|raw value|raw value|raw|raw]; try reflexivity; cbn [char_piece text_piece].
  - destruct (beqb (t_name t) (txt "escape")) eqn:Q; [|reflexivity]. apply beqb_true in Q. destruct (t_attrs t) as [|[n v] a] eqn:At; [reflexivity|].
    specialize (K Q n v a eq_refl). unfold count_byte. cbn [filter]. destruct (N.eqb_spec 10 (read_escape v)) as [E|E]; [contradiction K; symmetry; exact E|reflexivity].
  - symmetry. exact K.
Qed.
