(** The text lexer, and the whole token stream. *)
From Verif Require Import Base Text_Model Text_Proofs3 Parser_Model Lexer_Model Lexer_Spec Lexer_Proofs Lexer_Proofs2.
Local Open Scope N_scope.

Lemma closing_app : forall n d t s d2 t2 s2, closing n d t s = (d2, t2, s2) -> exists w, d2 = d ++ w /\ t2 = t ++ w /\ s = w ++ s2 /\ (length w <= n)%nat.
Proof.
  induction n as [|n IH]; intros d t s d2 t2 s2 H; cbn [closing] in H; [injection H as <- <- <-; exists []; rewrite !app_nil_r; auto|].
  destruct s as [|c s]; [injection H as <- <- <-; exists []; rewrite !app_nil_r; repeat split; cbn; lia|].
  destruct (_ && _); [|injection H as <- <- <-; exists []; rewrite !app_nil_r; repeat split; cbn; lia].
  destruct (IH _ _ _ _ _ _ H) as (w & -> & -> & -> & L). exists (c :: w). rewrite <- !app_assoc. repeat split; cbn; lia.
Qed.
(** one pass takes the character, and more of its kind *)
Lemma pass_app : forall x p c t r k t2 r2 q e, text_pass x p c t r = (k, t2, r2, q, e) ->
  exists w, t2 = t ++ c :: w /\ r = w ++ r2 /\ (k = COMMENT_TEXT \/ k = CONTROL_CHAR /\ control c /\ w = [] \/ exists e, k = Ends e) /\
    (~ control c -> k <> CONTROL_CHAR) /\ (control c -> k = CONTROL_CHAR) /\ ((t_mode x = RAW_STRING_END /\ t_delimiter x <> []) \/ Forall (fun d => d = 34) w) /\ (e = t_mode x \/ t_mode x = RAW_STRING_END).
Proof.
  intros x p c t r k t2 r2 q e H. unfold text_pass in H.
  match type of H with (match ?m with _ => _ end) = _ => destruct m as ((((k1, t1), r1), q1), e1) eqn:E end.
  assert (X : exists w, t1 = t ++ c :: w /\ r = w ++ r1 /\ (k1 = COMMENT_TEXT \/ k1 = CONTROL_CHAR /\ control c /\ w = [] \/ exists e, k1 = Ends e) /\
    (~ control c -> k1 <> CONTROL_CHAR) /\ (control c -> k1 = CONTROL_CHAR) /\ ((t_mode x = RAW_STRING_END /\ t_delimiter x <> []) \/ Forall (fun d => d = 34) w) /\ (e1 = t_mode x \/ t_mode x = RAW_STRING_END)).
  { destruct (N.eqb_spec c 10) as [->|N10].
    { injection E as <- <- <- <- <-. exists []. split; [reflexivity|]. split; [reflexivity|]. split; [destruct (_ || _); eauto|].
      split; [intros _; destruct (_ || _); discriminate|]. split; [intros (_ & _ & Q); contradiction|]. auto. }
    destruct ((c <? 32) && negb (c =? 9)) eqn:K.
    { injection E as <- <- <- <- <-. assert (Q : control c) by (unfold control; lia). exists []. split; [reflexivity|]. split; [reflexivity|]. split; [tauto|]. split; [contradiction|]. auto. }
    assert (NC : ~ control c) by (unfold control; lia). clear K.
    destruct (N.eqb_spec c 34) as [->|N34].
    { destruct (if p =? 92 then _ else _) as (ta, ra) eqn:Q. injection E as <- <- <- <- <-.
      assert (W : exists w, ta = t ++ 34 :: w /\ r = w ++ ra /\ Forall (fun d => d = 34) w).
      { destruct (p =? 92); [injection Q as <- <-; exists []; auto|]. apply many_app in Q as (w & -> & -> & F & _). exists w. rewrite <- app_assoc. split; [reflexivity|]. split; [reflexivity|].
        eapply Forall_impl; [|exact F]. unfold is. cbn beta. intros d D. apply N.eqb_eq in D. auto. }
      destruct W as (w & -> & -> & W). exists w. split; [reflexivity|]. split; [reflexivity|]. split; [destruct (_ || _); eauto|]. split; [intros _; destruct (_ || _); discriminate|]. split; [contradiction|]. auto. }
    destruct (N.eqb_spec c 39) as [->|N39].
    { injection E as <- <- <- <- <-. exists []. split; [reflexivity|]. split; [reflexivity|]. split; [destruct (_ && _); [right; right; eexists; reflexivity|left; reflexivity]|]. split; [intros _; destruct (_ && _); discriminate|]. split; [contradiction|]. auto. }
    destruct (N.eqb_spec c 41) as [->|N41].
    { destruct (t_mode x) eqn:M.
      3: { destruct (closing _ _ _ _) as ((d, ta), ra) eqn:Q. injection E as <- <- <- <- <-. apply closing_app in Q as (w & _ & -> & -> & L). exists w. rewrite <- app_assoc. split; [reflexivity|]. split; [reflexivity|]. split; [auto|]. split; [discriminate|]. split; [contradiction|]. split; [|auto].
           destruct (t_delimiter x); [right; destruct w; [constructor|cbn in L; lia]|left; split; [reflexivity|discriminate]]. }
      all: injection E as <- <- <- <- <-; exists []; split; [reflexivity|]; split; [reflexivity|]; split; [auto|]; split; [discriminate|]; split; [contradiction|]; auto. }
    destruct (N.eqb_spec c 47) as [->|N47].
    { injection E as <- <- <- <- <-. exists []. split; [reflexivity|]. split; [reflexivity|]. split; [destruct (_ && _); [right; right; eexists; reflexivity|left; reflexivity]|]. split; [intros _; destruct (_ && _); discriminate|]. split; [contradiction|]. auto. }
    destruct (N.eqb_spec c 92) as [->|N92]; injection E as <- <- <- <- <-; exists [];
      (split; [reflexivity|]); (split; [reflexivity|]); (split; [auto|]); (split; [discriminate|]); (split; [contradiction|]); auto. }
  clear E. destruct X as (w & -> & -> & K & NC & YC & W & M). injection H as <- <- <- <- <-. exists w. split; [reflexivity|]. split; [reflexivity|].
  split; [|split; [|split; [|split; [exact W|exact M]]]].
  - destruct K as [->|[(-> & K)|(e & ->)]]; [destruct (_ && _); [right; right; eexists; reflexivity|left; reflexivity]|right; left; auto|right; right; eexists; reflexivity].
  - intros Q. specialize (NC Q). destruct k1; try discriminate; try (destruct (_ && _); discriminate); contradiction.
  - intros Q. rewrite (YC Q). reflexivity.
Qed.
(** a token of the text lexer: nonempty; a control character only alone, except in a string with a delimiter *)
Lemma rule_app : forall n x first p t s k t2 r y, (length s <= n)%nat -> text_rule n x first p t s = (k, t2, r, y) ->
  exists w, t2 = t ++ w /\ s = w ++ r /\ (s <> [] -> first = true -> w <> []) /\
    (k = COMMENT_TEXT \/ k = CONTROL_CHAR /\ first = true \/ exists e, k = Ends e) /\
    ((exists e, k = Ends e) <-> y = None) /\
    (k = CONTROL_CHAR -> exists c, w = [c] /\ control c) /\
    (t_mode x = RAW_STRING_END /\ t_delimiter x <> [] \/ (k <> CONTROL_CHAR -> Forall (fun c => ~ control c) w)).
Proof.
  induction n as [|n IH]; intros x first p t s k t2 r y L H.
  { destruct s; [|cbn in L; lia]. cbn [text_rule] in H. injection H as <- <- <- <-. exists []. rewrite app_nil_r. split; [reflexivity|]. split; [reflexivity|]. split; [congruence|]. split; [auto|]. split; [split; [intros (e & Q); discriminate Q|discriminate]|]. split; [discriminate|]. right. intros _. constructor. }
  destruct s as [|c s].
  { cbn [text_rule] in H. injection H as <- <- <- <-. exists []. rewrite app_nil_r. split; [reflexivity|]. split; [reflexivity|]. split; [congruence|]. split; [auto|]. split; [split; [intros (e & Q); discriminate Q|discriminate]|]. split; [discriminate|]. right. intros _. constructor. }
  cbn [text_rule] in H. destruct (_ || first) eqn:A.
  2: { injection H as <- <- <- <-. exists []. rewrite app_nil_r. destruct first; [rewrite orb_true_r in A; discriminate A|]. split; [reflexivity|]. split; [reflexivity|]. split; [congruence|]. split; [auto|]. split; [split; [intros (e & Q); discriminate Q|discriminate]|]. split; [discriminate|]. right. intros _. constructor. }
  destruct (text_pass x p c t s) as ((((k1, t1), r1), q1), e1) eqn:E. apply pass_app in E as (w & -> & -> & K & NC & YC & W & M).
  assert (WC : t_mode x = RAW_STRING_END /\ t_delimiter x <> [] \/ Forall (fun c => ~ control c) w).
  { destruct W as [W|W]; [left; exact W|right]. eapply Forall_impl; [|exact W]. cbn beta. intros d -> (Q & _). lia. }
  destruct K as [->|[(-> & CC & ->)|(e & ->)]].
  - apply IH in H as (v & -> & -> & _ & K2 & Y & VC & V); [|cbn [length] in L; rewrite app_length in L; lia].
    exists (c :: w ++ v). split; [rewrite <- app_assoc; cbn [app]; reflexivity|]. split; [cbn [app]; rewrite <- app_assoc; reflexivity|]. split; [discriminate|].
    split; [destruct K2 as [K2|[(K2 & Q)|K2]]; [auto|discriminate Q|auto]|]. split; [exact Y|].
    assert (NCC : ~ control c) by (intros Q; specialize (YC Q); discriminate YC). cbn [t_mode t_delimiter] in V.
    split; [intros ->; destruct K2 as [K2|[(_ & K2)|(e & K2)]]; discriminate K2|].
    destruct WC as [WC|WC]; [left; exact WC|]. destruct V as [(V1 & V2)|V2].
    + destruct M as [M|M]; left; split; congruence || assumption.
    + right. intros Q; constructor; [exact NCC|apply Forall_app; split; [exact WC|apply V2, Q]].
  - injection H as <- <- <- <-. exists [c]. split; [reflexivity|]. split; [reflexivity|]. split; [discriminate|].
    assert (F : first = true). { destruct first; [reflexivity|]. unfold control in CC. lia. }
    split; [auto|]. split; [split; [intros (e & Q); discriminate Q|discriminate]|]. split; [intros _; exists c; auto|]. right. congruence.
  - injection H as <- <- <- <-. exists (c :: w). split; [reflexivity|]. split; [reflexivity|]. split; [discriminate|]. split; [right; right; eauto|]. split; [split; [reflexivity|intros _; eauto]|].
    split; [discriminate|]. destruct WC as [WC|WC]; [left; exact WC|right]. intros _. constructor; [|exact WC]. intros Q. specialize (YC Q). discriminate YC.
Qed.
