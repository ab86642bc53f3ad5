(** From the tokens to [regions], over a whole source. *)
From Verif Require Import Base Text_Model Text_Proofs3 Parser_Model Lexer_Model Lexer_Spec Lexer_Proofs Lexer_Proofs2 Lexer_Proofs3 Lexer_Proofs4 Lexer_Proofs6 Lexer_Proofs7 Lexer_Proofs8.
Local Open Scope N_scope.

(** ** Directives *)
Lemma operator_preproc : forall lang column m c r x, operator lang column m c r = Some x -> onpreprocline (m_main x) = true ->
  onpreprocline m = true \/ m_type x = PREPROC /\ m_text x = [35].
Proof.
  intros lang column m c r x H P. unfold operator in H. cbv zeta beta in H. rewrite hd62, hd60, hd6261 in H.
  destruct c as [|c]; [discriminate H|].
  do 7 (try (destruct c as [c|c|]; try discriminate H)).
  all: repeat match type of H with
       | (let (_, _) := ?x in _) = _ => destruct x
       | Some _ = Some _ => injection H as <-; cbn [m_main onpreprocline set_startline string_start char_start] in P
       | (if ?b then _ else _) = _ => destruct b
       | (match ?x with _ => _ end) = _ => destruct x
       end; try (left; exact P); try discriminate P.
  cbn [m_type m_text]. destruct (startline m); [right; split; reflexivity|left; exact P].
Qed.
Lemma main_preproc : forall lang ms column m c r a, simple_macros ms -> main_rule lang (literals lang ms) column m c r = Some a -> onpreprocline (m_main a) = true ->
  onpreprocline m = true \/ m_type a = PREPROC.
Proof.
  intros lang ms column m c r a S H P. unfold main_rule in H.
  destruct (c =? 34); [injection H as <-; left; exact P|]. destruct (c =? 39); [injection H as <-; left; exact P|].
  destruct (digit c); [destruct (constants [c] r) as ((i, t), r2); injection H as <-; left; exact P|].
  destruct (name_start c).
  { injection H as <-. left. revert P. unfold name, raw_string_start, string_start. destruct (many name_char [c] r) as (t, r1). cbn [m_main].
    repeat match goal with |- context[match ?x with _ => _ end] => destruct x; cbn [m_main onpreprocline set_startline string_start raw_string_start] end; auto. }
  destruct (c =? 47).
  { injection H as <-. left. revert P. unfold comment_start. match goal with |- onpreprocline (m_main (match ?x with _ => _ end)) = _ -> _ => destruct x as (((k, e), t), r2) end. cbn [m_main]. destruct e; [discriminate|auto]. }
  destruct (_ || _); [destruct (many _ [c] r); injection H as <-; left; exact P|]. destruct (c =? 10); [injection H as <-; discriminate P|].
  destruct (_ && _); [injection H as <-; left; exact P|].
  destruct (operator lang column m c r) as [x|] eqn:O; [|discriminate H]. injection H as <-. cbn [m_main onpreprocline m_type] in *.
  destruct (operator_preproc _ _ _ _ _ _ O P) as [Q|(Q1 & Q2)]; [left; exact Q|right]. rewrite Q1, Q2. apply (retype_none lang ms [35] PREPROC 35); [vm_compute; reflexivity|exact S|left; reflexivity|auto].
Qed.

(** ** A token of the main lexer *)
Definition st_of (x : option textual) : region := match x with None => Code | Some y => of_mode (t_mode y) end.
Definition labels_of (x : option textual) (s : bytes) : list region := match x with None => regions Code s | Some y => after (of_mode (t_mode y)) 0 s end.
Definition easy (x : option textual) : Prop := match x with None => True | Some y => t_mode y <> RAW_STRING_END /\ t_noescape y = false end.
Lemma unusual_r : forall a b, unusual b -> unusual (a ++ b).
Proof. intros a b [H|[H|H]]; [left|right; left|right; right]; apply occurs_r, H. Qed.
Lemma code_repeat : forall n, map plain (repeat Code n) = repeat Code n.
Proof. intros n. apply map_repeat. Qed.
Lemma cut_labels : forall lang ms m a, cut lang ms m a -> atstring m = false -> In lang languages -> simple_macros ms -> ~ unusual (m_text a ++ m_rest a) ->
  easy (m_push a) /\ (forall y, m_push a = Some y -> t_onpreprocline y = onpreprocline m) /\
  exists ls, length ls = length (m_text a) /\ regions Code (m_text a ++ m_rest a) = ls ++ labels_of (m_push a) (m_rest a) /\
    forall i j l, marked Code (Tok (m_type a) (m_text a) i j :: l) = map plain ls ++ marked (st_of (m_push a)) l.
Proof.
  intros lang ms m a H AT LG SM U. destruct H as [k t r m2 T F K|c r m2 K|t r m2 T|c r m2 D|t k e r m2 T|t k e r m2 T K|pre k r m2 ne F K NE|q d o r m2 LC F D O|pre k r m2 F K]; cbn [m_text m_type m_push m_rest] in *.
  - split; [exact Logic.I|]. split; [discriminate|]. exists (repeat Code (length t)). split; [apply repeat_length|]. split; [apply code_regions, F|].
    intros i j l. rewrite code_repeat. destruct k; try destruct K; reflexivity.
  - split; [exact Logic.I|]. split; [discriminate|]. exists [Code]. split; [reflexivity|]. split; [apply control_regions, K|]. reflexivity.
  - split; [exact Logic.I|]. split; [discriminate|]. destruct (slash_kinds lang LG) as (S1 & S2). destruct T as [(-> & H1 & H2)| ->].
    + exists [Code]. split; [reflexivity|]. split.
      * cbn [app labels_of]. destruct r as [|d r]; [reflexivity|]. cbn [hd] in *. cbn [regions N.eqb Pos.eqb andb].
        destruct (N.eqb_spec d 47); [contradiction|]. destruct (N.eqb_spec d 42); [contradiction|]. reflexivity.
      * intros i j l. unfold retype, literals. rewrite S1. reflexivity.
    + exists [Code; Code]. split; [reflexivity|]. split; [|intros i j l; unfold retype, literals; rewrite S2; reflexivity].
      cbn [app labels_of]. cbn [regions N.eqb Pos.eqb andb]. destruct r; reflexivity.
  - split; [exact Logic.I|]. split; [discriminate|]. destruct D as [->| ->].
    + exists [Block; Block; Block; Block]. split; [reflexivity|]. split; [reflexivity|]. intros i j l.
      rewrite (retype_none lang ms _ WHOLE_COMMENT 47); [reflexivity|vm_compute; reflexivity|exact SM|left; reflexivity|auto].
    + exfalso. apply U. right. right. exists [], r. reflexivity.
  - assert (X : e = LINE_COMMENT_END /\ k = LINE_COMMENT_START \/ e = LINE_DOXYGEN_COMMENT_END /\ k = LINE_DOXYGEN_COMMENT_START) by tauto.
    assert (TT : t = [47; 47] \/ t = [47; 47; 47] \/ t = [47; 47; 33]) by tauto. clear T.
    assert (EM : of_mode e = Line /\ e <> RAW_STRING_END) by (destruct X as [(-> & _)|(-> & _)]; split; try reflexivity; discriminate). destruct EM as (EM & ER).
    split; [split; [exact ER|exact AT]|]. split; [intros y Q; injection Q as <-; reflexivity|].
    exists (repeat Line (length t)). split; [apply repeat_length|]. cbn [labels_of st_of t_mode]. rewrite EM. split.
    + destruct TT as [->|[->| ->]]; reflexivity.
    + intros i j l. rewrite map_repeat. rewrite (retype_none lang ms t k 47); [destruct X as [(_ & ->)|(_ & ->)]; reflexivity| |exact SM| |auto]; destruct TT as [->|[->| ->]]; vm_compute; auto.
  - assert (X : (k, e) = (BLOCK_COMMENT_START, BLOCK_COMMENT_END) \/ (k, e) = (JAVADOC_COMMENT_START, JAVADOC_COMMENT_END) \/ (k, e) = (DOXYGEN_COMMENT_START, DOXYGEN_COMMENT_END)) by exact K.
    assert (EM : of_mode e = Block /\ e <> RAW_STRING_END) by (destruct X as [X|[X|X]]; injection X as _ ->; split; try reflexivity; discriminate). destruct EM as (EM & ER).
    assert (TT : t = [47; 42] \/ t = [47; 42; 42] \/ t = [47; 42; 33]) by tauto.
    split; [split; [exact ER|exact AT]|]. split; [intros y Q; injection Q as <-; reflexivity|].
    exists (repeat Block (length t)). split; [apply repeat_length|]. cbn [labels_of st_of t_mode]. rewrite EM, after_start. split.
    + destruct T as [->|([->| ->] & H1)]; [reflexivity| |]; cbn [length repeat app]; match goal with |- regions Code (47 :: 42 :: ?z) = _ => change (regions Code (47 :: 42 :: z)) with (Block :: Block :: regions Block z) end; do 2 f_equal.
      * rewrite regions_block. f_equal. destruct r as [|d r]; [reflexivity|]. cbn [hd] in H1. cbn [after N.eqb Pos.eqb andb]. destruct (N.eqb_spec d 47); [contradiction|reflexivity].
      * rewrite regions_block. f_equal. destruct r as [|d r]; reflexivity.
    + intros i j l. rewrite map_repeat. rewrite (retype_none lang ms t k 47); [destruct X as [X|[X|X]]; injection X as -> _; reflexivity| |exact SM| |auto]; destruct TT as [->|[->| ->]]; vm_compute; auto.
  - destruct NE as [(_ & ->)| ->]; [exfalso; apply U; right; left; exists [], r; reflexivity|].
    assert (KK : k = STRING_START) by (destruct K as [->| ->]; [reflexivity|apply retype_string; [exact SM|apply in_or_app; right; left; reflexivity]]). subst k. clear K.
    split; [split; [discriminate|reflexivity]|]. split; [intros y Q; injection Q as <-; reflexivity|].
    exists (repeat Code (length pre) ++ [Str]). split; [rewrite !app_length, repeat_length; reflexivity|]. split.
    + rewrite <- !app_assoc, code_regions by exact F. cbn [app labels_of t_mode of_mode]. rewrite after_start. reflexivity.
    + intros i j l. cbn [marked k_type k_text]. rewrite app_length. cbn [length]. replace (length pre + 1 - 1)%nat with (length pre) by lia. rewrite map_app, code_repeat, <- app_assoc. reflexivity.
  - exfalso. apply U. left. exists q, ((d ++ o) ++ r). rewrite <- !app_assoc. reflexivity.
  - assert (KK : k = CHAR_START) by (destruct K as [->| ->]; [reflexivity|apply retype_char; [exact SM|apply in_or_app; right; left; reflexivity]]). subst k. clear K.
    split; [split; [discriminate|reflexivity]|]. split; [intros y Q; injection Q as <-; reflexivity|].
    exists (repeat Code (length pre) ++ [Chr]). split; [rewrite !app_length, repeat_length; reflexivity|]. split.
    + rewrite <- !app_assoc, code_regions by exact F. cbn [app labels_of t_mode of_mode]. rewrite after_start. reflexivity.
    + intros i j l. cbn [marked k_type k_text]. rewrite app_length. cbn [length]. replace (length pre + 1 - 1)%nat with (length pre) by lia. rewrite map_app, code_repeat, <- app_assoc. reflexivity.
Qed.

(** ** The whole source *)
Lemma clear_le : forall a b s ls, (b = true -> a = true) -> clear_of a s ls -> clear_of b s ls.
Proof. intros a b s ls H (C1 & C2). split; [exact C1|]. intros Q. exact (C2 (H Q)). Qed.
Lemma scan_labels : forall n w m x p s l pre, (length s <= n)%nat -> atstring m = false -> easy x -> In (s_lang w) languages -> simple_macros (s_macros w) -> ~ unusual s ->
  clear_of pre s (labels_of x s) ->
  (pre = false -> onpreprocline m = false /\ (forall y, x = Some y -> t_onpreprocline y = false) /\ Forall (fun t => k_type t <> PREPROC) l) ->
  scan n w m x p s = (l, AtEnd) -> map plain (labels_of x s) = marked (st_of x) l.
Proof.
  induction n as [|n IH]; intros w m x p s l pre L A EX LG SM U CL PR H.
  { destruct s; [|cbn in L; lia]. cbn in H. injection H as <-. destruct x; cbn [labels_of marked]; rewrite ?after_nil; reflexivity. }
  destruct s as [|c s]; [cbn in H; injection H as <-; destruct x; cbn [labels_of marked]; rewrite ?after_nil; reflexivity|].
  cbn [scan] in H. destruct (next w m x p (c :: s)) as [((((k, t), r), m2), y)|] eqn:NX; [|discriminate H].
  destruct (steps _ p t) as [q|]; [|discriminate H].
  match type of H with (let (_, _) := scan n w ?m3 y q r in _) = _ => set (m4 := m3) in H; destruct (scan n w m4 y q r) as (l2, e2) eqn:R end.
  injection H as <- ->.
  assert (X : c :: s = t ++ r /\ t <> [] /\ easy y /\ atstring m4 = false /\
    (pre = false -> onpreprocline m4 = false /\ (forall z, y = Some z -> t_onpreprocline z = false)) /\
    exists ls, length ls = length t /\ labels_of x (c :: s) = ls ++ labels_of y r /\ marked (st_of x) (Tok k t (line p) (col p) :: l2) = map plain ls ++ marked (st_of y) l2).
  { pose proof (next_ok w m x p (c :: s) A ltac:(discriminate)) as NO. rewrite NX in NO. destruct NO as (S1 & S2 & S3 & _).
    split; [exact S1|]. split; [exact S2|]. unfold next in NX. destruct x as [x|].
    - cbn [labels_of st_of easy] in *. destruct EX as (E1 & E2).
      destruct (text_rule (length (c :: s)) x true 0 [] (c :: s)) as (((k0, t0), r0), y0) eqn:E. injection NX as <- <- <- <- <-.
      pose proof E as E0. apply rule_app in E0 as (w0 & _ & _ & _ & KK & KY & _); [|apply Nat.le_refl].
      apply rule_labels in E as (w1 & ls & -> & _ & LL & AA & YX & D); [|apply Nat.le_refl|exact E1|exact E2| |discriminate].
      2: { apply (clear_le pre); [|exact CL]. intros Q. destruct pre; [reflexivity|]. destruct (PR eq_refl) as (_ & P2 & _). rewrite (P2 x eq_refl) in Q. exact Q. }
      cbn [app] in *.
      split; [destruct y0 as [z|]; [rewrite (YX z eq_refl); split; assumption|exact Logic.I]|]. split; [exact S3|].
      split; [intros Q; destruct (PR Q) as (P1 & P2 & _); split; [exact P1|intros z Z; rewrite (YX z Z); apply P2; reflexivity]|].
      exists ls. split; [exact LL|].
      split; [rewrite AA; f_equal; destruct y0 as [z|]; cbn [labels_of]; [rewrite (YX z eq_refl); reflexivity|reflexivity]|].
      assert (SY : ends k0 = true -> st_of y0 = Code).
      { intros Q. destruct k0; try discriminate Q. assert (Y0 : y0 = None) by (apply KY; eauto). rewrite Y0. reflexivity. }
      assert (SN : ends k0 = false -> st_of y0 = of_mode (t_mode x)).
      { intros Q. destruct y0 as [z|]; [cbn; rewrite (YX z eq_refl); reflexivity|]. exfalso. destruct (proj2 KY eq_refl) as (e & ->). discriminate Q. }
      destruct D as [(D1 & D2)|(_ & -> & -> & D2)].
      + rewrite D1. destruct KK as [->|[(-> & _)|(e & ->)]].
        * rewrite (SN eq_refl). reflexivity.
        * rewrite (SN eq_refl). reflexivity.
        * rewrite (SY eq_refl). destruct (D2 eq_refl) as (D3 & D4). cbn [marked k_type k_text]. f_equal.
          destruct w1 as [|b [|b2 w1]]; [contradiction| |]; [|destruct b as [|b]; [reflexivity|]; repeat (destruct b as [b|b|]; try reflexivity)].
          assert (N10 : b <> 10) by (intros ->; apply D4; reflexivity). destruct b as [|b]; [reflexivity|]. repeat (destruct b as [b|b|]; try reflexivity; try (exfalso; apply N10; reflexivity)).
      + rewrite (SY D2). destruct k0; try discriminate D2. reflexivity.
    - cbn [labels_of st_of easy] in *. destruct (main_rule _ _ _ m c s) as [a|] eqn:E; [|discriminate NX]. injection NX as <- <- <- <- <-.
      pose proof E as E0. apply main_cut in E0 as (C1 & C2 & C3); [|exact A]. rewrite C2 in U.
      pose proof (main_preproc _ _ _ _ _ _ _ SM E) as MP.
      destruct (cut_labels _ _ _ _ C1 A LG SM U) as (Y1 & Y2 & ls & L1 & L2 & L3).
      split; [exact Y1|]. split; [subst m4; destruct (is_operator c); exact S3|].
      split; [|exists ls; split; [exact L1|]; split; [rewrite C2; exact L2|apply L3]].
      intros Q. destruct (PR Q) as (P1 & _ & P2). split; [|intros z Z; rewrite (Y2 z Z); exact P1].
      assert (P3 : onpreprocline (m_main a) = false). { destruct (onpreprocline (m_main a)) eqn:PP; [exfalso|reflexivity]. destruct (MP eq_refl) as [M|M]; [congruence|]. inversion P2; subst. contradiction. }
      subst m4. destruct (is_operator c); exact P3. }
  destruct X as (X1 & X2 & X3 & X4 & X5 & ls & X6 & X7 & X8).
  rewrite X7, X8, map_app. f_equal. apply (IH w m4 y q r l2 pre); try assumption.
  - rewrite X1, app_length in L. destruct t; [contradiction|]. cbn in L. lia.
  - intros Q. apply U. rewrite X1. apply unusual_r, Q.
  - rewrite X7, X1 in CL. eapply clear_app; [|exact CL]. symmetry. exact X6.
  - intros Q. destruct (X5 Q) as (Q1 & Q2). destruct (PR Q) as (_ & _ & P). split; [exact Q1|]. split; [exact Q2|]. inversion P; assumption.
Qed.
