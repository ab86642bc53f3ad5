(** Raw strings: to the first closing parenthesis with the delimiter and a quote. *)
From Verif Require Import Base Text_Model Text_Proofs3 Parser_Model Lexer_Model Lexer_Spec Lexer_Proofs Lexer_Proofs2 Lexer_Proofs3 Lexer_Proofs4 Lexer_Proofs6 Lexer_Proofs7 Lexer_Proofs8 Lexer_Comments.
Local Open Scope N_scope.

Definition close_of (d : bytes) : bytes := 41 :: d ++ [34].
(** no end of the string begins in [u], which [r] follows *)
Definition unclosed (d u r : bytes) : Prop := forall u1 u2 b, u = u1 ++ u2 -> u2 <> [] -> u2 ++ r <> close_of d ++ b.
Lemma unclosed_nil : forall d r, unclosed d [] r.
Proof. intros d r u1 u2 b E N. destruct u1; [|discriminate E]. cbn in E. subst u2. contradiction. Qed.
Lemma unclosed_app : forall d u v r, unclosed d u (v ++ r) -> unclosed d v r -> unclosed d (u ++ v) r.
Proof.
  intros d u v r A B u1 u2 b E N Q. apply app_eq_app in E as (l & [(E1 & E2)|(E1 & E2)]).
  - subst u. destruct l as [|c l]; [cbn in E2; subst u2; apply (B [] v b eq_refl N Q)|]. subst u2. rewrite <- app_assoc in Q. apply (A u1 (c :: l) b eq_refl); [discriminate|exact Q].
  - subst u1 v. exact (B l u2 b eq_refl N Q).
Qed.
Lemma unclosed_free : forall d u r, ~ In 41 u -> unclosed d u r.
Proof. intros d u r N u1 u2 b -> NE Q. destruct u2 as [|c u2]; [contradiction|]. injection Q as -> _. apply N. apply in_or_app. right. left. reflexivity. Qed.
Lemma unclosed_one : forall d w r, ~ In 41 w -> (forall b, w ++ r <> d ++ 34 :: b) -> unclosed d (41 :: w) r.
Proof.
  intros d w r N H. change (41 :: w) with ([41] ++ w). intros u1 u2 b E NE Q. destruct u1 as [|c u1].
  - cbn in E. subst u2. unfold close_of in Q. cbn [app] in Q. injection Q as Q. rewrite <- app_assoc in Q. exact (H b Q).
  - injection E as _ E. exact (unclosed_free d w r N u1 u2 b E NE Q).
Qed.
Lemma unclosed_occurs : forall d v, unclosed d v (close_of d) -> ~ occurs (close_of d) (v ++ 41 :: d).
Proof.
  intros d v U (a & b & E). apply app_eq_app in E as (l & [(E1 & E2)|(E1 & E2)]).
  - subst v. destruct l as [|c l].
    + apply (f_equal (@length N)) in E2. unfold close_of in E2. cbn [app length] in E2. rewrite ?app_length in E2. cbn [length] in E2. lia.
    + apply (U a (c :: l) (b ++ [34])); [reflexivity|discriminate|]. unfold close_of at 1. change (41 :: d ++ [34]) with ((41 :: d) ++ [34]). rewrite app_assoc, <- E2, <- app_assoc. reflexivity.
  - apply (f_equal (@length N)) in E2. unfold close_of in E2. cbn [app length] in E2. rewrite ?app_length in E2. cbn [length] in E2. rewrite ?app_length in E2. cbn [length] in E2. lia.
Qed.
Lemma unclosed_end : forall d v, unclosed d v [] -> ~ occurs (close_of d) v.
Proof. intros d v U (a & b & ->). apply (U a (close_of d ++ b) b); [reflexivity|discriminate|]. apply app_nil_r. Qed.

(** what the lexer can compare: characters of a delimiter, that the text lexer's complements have *)
Definition plain_delimiter (d : bytes) : Prop := Forall (fun c => delimiter_char c = true /\ c <= 127) d.
Lemma closing_all : forall w n d t s, plain_delimiter w -> n = length w -> closing n d t (w ++ s) = (d ++ w, t ++ w, s).
Proof.
  induction w as [|c w IH]; intros n d t s P ->; cbn [length closing app]; [rewrite !app_nil_r; reflexivity|].
  inversion P as [|? ? (P1 & P2) P3]; subst. rewrite P1. unfold TEXT_VOCABULARY. replace (c <=? 127) with true by lia. cbn [andb]. rewrite IH by auto. rewrite <- !app_assoc. reflexivity.
Qed.
Lemma closing_41 : forall n d t s d2 t2 s2, closing n d t s = (d2, t2, s2) -> forall w, t2 = t ++ w -> ~ In 41 w.
Proof.
  induction n as [|n IH]; intros d t s d2 t2 s2 H w E; cbn [closing] in H; [injection H as H1 H2 H3; assert (W : w = []) by (apply (app_inv_head t); rewrite app_nil_r; congruence); subst w; intros []|].
  destruct s as [|c s]; [injection H as H1 H2 H3; assert (W : w = []) by (apply (app_inv_head t); rewrite app_nil_r; congruence); subst w; intros []|].
  destruct (delimiter_char c && _) eqn:D; [|injection H as H1 H2 H3; assert (W : w = []) by (apply (app_inv_head t); rewrite app_nil_r; congruence); subst w; intros []].
  pose proof H as H0. apply closing_app in H0 as (v & _ & E2 & _). pose proof E2 as E3. rewrite E, <- app_assoc in E3. apply app_inv_head in E3. subst w. cbn [app].
  intros [Q|Q]; [subst c; discriminate D|]. exact (IH _ _ _ _ _ _ H v E2 Q).
Qed.

Definition is_raw (d : bytes) (x : textual) : Prop := x = Textual RAW_STRING_END false false d.
Lemma pass_in_raw : forall d x p c t r k t2 r2 q e, plain_delimiter d -> is_raw d x -> text_pass x p c t r = (k, t2, r2, q, e) ->
  exists w, t2 = t ++ c :: w /\ r = w ++ r2 /\
    ((k = COMMENT_TEXT \/ k = CONTROL_CHAR) /\ e = RAW_STRING_END /\ unclosed d (c :: w) r2 \/
     k = Ends RAW_STRING_END /\ r2 = [] /\ unclosed d (c :: w) [] \/
     k = COMMENT_TEXT /\ e = STRING_END /\ c :: w = 41 :: d /\ q = 41 /\ exists r3, r2 = 34 :: r3).
Proof.
  intros d x p c t r k t2 r2 q e PD -> H. pose proof H as H0. apply pass_app in H0 as (w0 & T0 & R0 & _). unfold text_pass in H. cbn [t_mode t_onpreprocline t_noescape t_delimiter andb orb negb] in H.
  match type of H with (match ?m with _ => _ end) = _ => destruct m as ((((k1, t1), r1), q1), e1) eqn:E end.
  assert (X : exists w, t1 = t ++ c :: w /\ r = w ++ r1 /\ (k1 = COMMENT_TEXT \/ k1 = CONTROL_CHAR) /\ (e1 = RAW_STRING_END /\ unclosed d (c :: w) r1 \/
    k1 = COMMENT_TEXT /\ e1 = STRING_END /\ c :: w = 41 :: d /\ q1 = 41 /\ exists r3, r1 = 34 :: r3)).
  { assert (ONE : forall k, (k = COMMENT_TEXT \/ k = CONTROL_CHAR) -> c <> 41 -> (k, t ++ [c], r, c, RAW_STRING_END) = (k1, t1, r1, q1, e1) ->
      exists w, t1 = t ++ c :: w /\ r = w ++ r1 /\ (k1 = COMMENT_TEXT \/ k1 = CONTROL_CHAR) /\ (e1 = RAW_STRING_END /\ unclosed d (c :: w) r1 \/ k1 = COMMENT_TEXT /\ e1 = STRING_END /\ c :: w = 41 :: d /\ q1 = 41 /\ exists r3, r1 = 34 :: r3)).
    { intros k0 K0 N Q. injection Q as <- <- <- <- <-. exists []. split; [reflexivity|]. split; [reflexivity|]. split; [exact K0|]. left. split; [reflexivity|]. apply unclosed_free. intros [Q|[]]. congruence. }
    destruct (N.eqb_spec c 10) as [->|N10]; [exact (ONE COMMENT_TEXT (or_introl eq_refl) ltac:(discriminate) E)|].
    destruct ((c <? 32) && negb (c =? 9)) eqn:CC; [exact (ONE CONTROL_CHAR (or_intror eq_refl) ltac:(lia) E)|].
    destruct (N.eqb_spec c 34) as [->|N34].
    { rewrite andb_false_r in E. destruct (if p =? 92 then _ else _) as (t3, r3) eqn:M. injection E as <- <- <- <- <-.
      assert (Y : exists w, t3 = t ++ 34 :: w /\ r = w ++ r3 /\ Forall (fun c => is 34 c = true) w).
      { destruct (p =? 92); [injection M as <- <-; exists []; auto|]. apply many_app in M as (w & -> & -> & W & _). exists w. rewrite <- app_assoc. auto. }
      destruct Y as (w & -> & -> & W). exists w. split; [reflexivity|]. split; [reflexivity|]. split; [auto|]. left. split; [reflexivity|]. apply unclosed_free.
      intros [Q|Q]; [discriminate Q|]. rewrite Forall_forall in W. specialize (W _ Q). discriminate W. }
    destruct (N.eqb_spec c 39) as [->|N39]; [rewrite andb_false_r in E; exact (ONE COMMENT_TEXT (or_introl eq_refl) ltac:(discriminate) E)|].
    destruct (N.eqb_spec c 41) as [->|N41].
    { destruct (closing (length d) [] (t ++ [41]) r) as ((d2, t3), r3) eqn:CL. injection E as <- <- <- <- E5.
      pose proof CL as C1. apply closing_app in C1 as (w & C1 & -> & -> & _). cbn [app] in C1. subst d2. exists w. split; [rewrite <- app_assoc; reflexivity|]. split; [reflexivity|]. split; [auto|].
      destruct (beqb w d && match r3 with 34 :: _ => true | _ => false end) eqn:B.
      - right. apply andb_prop in B as (B1 & B2). apply beqb_true in B1. subst w e1. split; [reflexivity|]. split; [reflexivity|]. split; [reflexivity|]. split; [reflexivity|].
        destruct r3 as [|z r3]; [discriminate B2|]. exists r3. f_equal. destruct z as [|z]; [discriminate B2|]. do 7 (try (destruct z as [z|z|]; try discriminate B2)); reflexivity.
      - left. subst e1. split; [reflexivity|]. apply unclosed_one; [exact (closing_41 _ _ _ _ _ _ _ CL w eq_refl)|]. intros b Q.
        rewrite Q in CL. rewrite (closing_all d (length d) [] (t ++ [41]) (34 :: b) PD eq_refl) in CL. injection CL as C1 _ C2. cbn [app] in C1. subst w r3. rewrite Text_Proofs3.beqb_refl in B. discriminate B. }
    destruct (N.eqb_spec c 47) as [->|N47]; [rewrite andb_false_r in E; exact (ONE COMMENT_TEXT (or_introl eq_refl) ltac:(discriminate) E)|].
    destruct (N.eqb_spec c 92) as [->|N92]; [|exact (ONE COMMENT_TEXT (or_introl eq_refl) N41 E)].
    injection E as <- <- <- <- <-. exists []. split; [reflexivity|]. split; [reflexivity|]. split; [auto|]. left. split; [reflexivity|]. apply unclosed_free. intros [Q|[]]; discriminate Q. }
  clear E. destruct X as (w & -> & -> & K & D). exists w. injection H as H1 <- <- <- <-. split; [reflexivity|]. split; [reflexivity|].
  destruct D as [(-> & U)|(-> & -> & W & -> & r3 & ->)].
  - destruct K as [-> | ->]; [|left; subst k; auto]. destruct r1 as [|z r1]; cbn in H1; [right; left; subst k; auto|]. left. split; [|auto]. left. subst k. destruct z as [|z]; [reflexivity|]. repeat (destruct z as [z|z|]; try reflexivity).
  - right. right. cbn in H1. subst k. split; [reflexivity|]. split; [reflexivity|]. split; [exact W|]. split; [reflexivity|]. exists r3. reflexivity.
Qed.
