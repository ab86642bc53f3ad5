(** A token of the text lexer covers its region. *)
From Verif Require Import Base Text_Model Text_Proofs3 Parser_Model Lexer_Model Lexer_Spec Lexer_Proofs Lexer_Proofs2 Lexer_Proofs3 Lexer_Proofs4 Lexer_Proofs6.
Local Open Scope N_scope.

Lemma map_repeat : forall (A B : Type) (f : A -> B) x n, map f (repeat x n) = repeat (f x) n.
Proof. intros A B f x. induction n as [|n IH]; cbn; [reflexivity|]. rewrite IH. reflexivity. Qed.
(** the pass before its last test *)
Definition covers (st : region) (p c : N) (r : bytes) (k : tk) (w : bytes) (r2 : bytes) (q : N) : Prop :=
  exists ls, length ls = S (length w) /\ after st p (c :: r) = ls ++ (match k with Ends _ => regions Code r2 | _ => after st q r2 end) /\
    (map plain ls = repeat st (S (length w)) /\ (c = 10 -> k = COMMENT_TEXT /\ st <> Line) \/ c = 10 /\ w = [] /\ ls = [Code] /\ st = Line /\ exists e, k = Ends e).
Lemma covers_one : forall st p c r k q, after st p (c :: r) = st :: (match k with Ends _ => regions Code r | _ => after st q r end) -> st <> StrEnd ->
  (c = 10 -> k = COMMENT_TEXT /\ st <> Line) -> covers st p c r k [] r q.
Proof. intros st p c r k q E S N. exists [st]. split; [reflexivity|]. split; [exact E|]. left. split; [|exact N]. destruct st; try reflexivity. contradiction. Qed.
Lemma covers_end : forall p c r e q, after Str p (c :: r) = StrEnd :: regions Code r -> c <> 10 -> covers Str p c r (Ends e) [] r q.
Proof. intros p c r e q E N. exists [StrEnd]. split; [reflexivity|]. split; [exact E|]. left. split; [reflexivity|]. intros Q. contradiction. Qed.
Lemma covers_quotes : forall st p r w r2, st = Line \/ st = Block \/ st = Chr -> r = w ++ r2 -> Forall (fun d => d = 34) w -> p <> 92 -> covers st p 34 r COMMENT_TEXT w r2 34.
Proof.
  intros st p r w r2 D -> F P. exists (repeat st (S (length w))). rewrite repeat_length. split; [reflexivity|].
  split; [|left; split; [|discriminate]; destruct D as [->|[->| ->]]; cbn [repeat map plain]; rewrite map_repeat; reflexivity].
  cbn [repeat app]. rewrite <- (after_quotes st w r2 D F). assert (PB : (p =? 92) = false) by lia.
  destruct D as [->|[->| ->]]; [rewrite after_line|rewrite after_block|rewrite after_chr]; unfold turned; cbn [N.eqb Pos.eqb negb andb]; rewrite ?andb_false_r; reflexivity.
Qed.
Lemma hd_not_doubled : forall r pre, clear_of pre (34 :: r) (StrEnd :: regions Code r) -> hd 0 r <> 34.
Proof. intros r pre (C & _) H. apply C. exists 0%nat. split; [reflexivity|]. destruct r as [|d r]; [discriminate H|]. cbn in *. congruence. Qed.
Lemma many_none : forall p t r, p (hd 0 r) = false -> many p t r = (t, r).
Proof. intros p t [|c r] H; cbn [many]; [reflexivity|]. cbn in H. rewrite H. reflexivity. Qed.
Lemma after_newline : forall st p r, st = Str \/ st = Chr -> exists l, after st p (10 :: r) = st :: l.
Proof. intros st p r [->| ->]; [rewrite after_str|rewrite after_chr]; cbn [N.eqb Pos.eqb]; rewrite andb_false_r; eauto. Qed.
Lemma not_broken : forall st p r, st = Str \/ st = Chr -> ~ broken (10 :: r) (after st p (10 :: r)) -> False.
Proof. intros st p r D C. destruct (after_newline st p r D) as (l & E). rewrite E in C. apply C. exists 0%nat. split; [reflexivity|]. cbn. destruct D as [->| ->]; auto. Qed.

Ltac no_control := match goal with |- (if ?b then _ else _) = _ -> _ => destruct b; discriminate | |- _ => discriminate end.
Lemma pass_labels : forall x p c t r k t2 r2 q e, t_mode x <> RAW_STRING_END -> t_noescape x = false ->
  clear_of (t_onpreprocline x) (c :: r) (after (of_mode (t_mode x)) p (c :: r)) -> text_pass x p c t r = (k, t2, r2, q, e) ->
  e = t_mode x /\ (k = CONTROL_CHAR -> control q) /\ (k = COMMENT_TEXT -> of_mode (t_mode x) = Line -> hd 0 r2 <> 10) /\
  exists w ls, t2 = t ++ c :: w /\ r = w ++ r2 /\ length ls = S (length w) /\
    after (of_mode (t_mode x)) p (c :: r) = ls ++ (match k with Ends _ => regions Code r2 | _ => after (of_mode (t_mode x)) q r2 end) /\
    (map plain ls = repeat (of_mode (t_mode x)) (S (length w)) /\ (c = 10 -> k = COMMENT_TEXT /\ of_mode (t_mode x) <> Line) \/
     c = 10 /\ w = [] /\ ls = [Code] /\ of_mode (t_mode x) = Line /\ exists e, k = Ends e).
Proof.
  intros x p c t r k t2 r2 q e NR NE CL H. unfold text_pass in H. rewrite NE in H.
  match type of H with (match ?m with _ => _ end) = _ => destruct m as ((((k1, t1), r1), q1), e1) eqn:E end.
  set (st := of_mode (t_mode x)) in *.
  assert (X : e1 = t_mode x /\ (k1 = CONTROL_CHAR -> control q1) /\ (c = 10 -> st = Str \/ st = Chr -> t_onpreprocline x = false) /\ exists w, t1 = t ++ c :: w /\ r = w ++ r1 /\ covers st p c r k1 w r1 q1).
  { assert (N10 : c = 10 -> st = Str \/ st = Chr -> t_onpreprocline x = false).
    { intros -> D. destruct (t_onpreprocline x); [exfalso|reflexivity]. destruct CL as (_ & CL). exact (not_broken st p r D (CL eq_refl)). }
    destruct (N.eqb_spec c 10) as [->|NN].
    { injection E as <- <- <- <- <-. split; [reflexivity|]. split; [destruct (_ || _); discriminate|]. split; [exact N10|]. exists []. split; [reflexivity|]. split; [reflexivity|].
      destruct (t_mode x) eqn:M; subst st; cbn [of_mode] in *; try contradiction; cbn [orb andb];
        try (apply covers_one; [rewrite after_block; cbn [N.eqb Pos.eqb]; rewrite andb_false_r; reflexivity|discriminate|split; [reflexivity|discriminate]]);
        try (exists [Code]; split; [reflexivity|]; split; [reflexivity|]; right; split; [reflexivity|]; split; [reflexivity|]; split; [reflexivity|]; split; [reflexivity|]; eexists; reflexivity);
        rewrite (N10 eq_refl ltac:(tauto)).
      - apply covers_one; [rewrite after_str; cbn [N.eqb Pos.eqb]; rewrite andb_false_r; reflexivity|discriminate|split; [reflexivity|discriminate]].
      - apply covers_one; [rewrite after_chr; cbn [N.eqb Pos.eqb]; rewrite andb_false_r; reflexivity|discriminate|split; [reflexivity|discriminate]]. }
    destruct ((c <? 32) && negb (c =? 9)) eqn:K.
    { injection E as <- <- <- <- <-. split; [reflexivity|]. split; [unfold control; lia|]. split; [exact N10|]. exists []. split; [reflexivity|]. split; [reflexivity|].
      assert (B : (c =? 10) = false /\ (c =? 47) = false /\ (c =? 34) = false /\ (c =? 39) = false /\ (c =? 92) = false) by lia. destruct B as (B1 & B2 & B3 & B4 & B5).
      apply covers_one; [|destruct (t_mode x); discriminate|intros; contradiction].
      destruct (t_mode x); subst st; cbn [of_mode] in *; rewrite ?after_line, ?after_block, ?after_str, ?after_chr; unfold turned; rewrite ?B1, ?B2, ?B3, ?B4, ?B5, ?andb_false_r; reflexivity. }
    clear K. split; [|split; [|split; [exact N10|]]].
    { destruct (c =? 34); [destruct (if p =? 92 then _ else _); injection E as _ _ _ _ <-; reflexivity|]. destruct (c =? 39); [injection E as _ _ _ _ <-; reflexivity|].
      destruct (c =? 41); [destruct (t_mode x); try contradiction; injection E as _ _ _ _ <-; reflexivity|].
      destruct (c =? 47); [injection E as _ _ _ _ <-; reflexivity|]. destruct (c =? 92); injection E as _ _ _ _ <-; reflexivity. }
    { intros ->. exfalso. destruct (c =? 34); [destruct (if p =? 92 then _ else _); injection E as E _ _ _ _; revert E; no_control|].
      destruct (c =? 39); [injection E as E _ _ _ _; revert E; no_control|].
      destruct (c =? 41); [destruct (t_mode x); try contradiction; discriminate E|].
      destruct (c =? 47); [injection E as E _ _ _ _; revert E; no_control|]. destruct (c =? 92); discriminate E. }
    assert (CN : (c =? 10) = false) by lia.
    destruct (N.eqb_spec c 34) as [->|N34].
    { destruct (N.eqb_spec p 92) as [->|NP].
      - injection E as <- <- <- <- <-. exists []. split; [reflexivity|]. split; [reflexivity|]. cbn [negb andb orb].
        apply covers_one; [|destruct (t_mode x); discriminate|discriminate].
        destruct (t_mode x); subst st; cbn [of_mode] in *; rewrite ?after_line, ?after_block, ?after_str, ?after_chr; unfold turned; cbn; reflexivity.
      - destruct (many (is 34) (t ++ [34]) r) as (ta, ra) eqn:MQ. pose proof MQ as MQ0. apply many_app in MQ0 as (w & -> & -> & W & _).
        assert (F : Forall (fun d => d = 34) w) by (eapply Forall_impl; [|exact W]; unfold is; cbn beta; intros d D; apply N.eqb_eq in D; auto).
        injection E as <- <- <- <- <-. cbn [negb andb orb]. exists w. rewrite <- app_assoc. split; [reflexivity|]. split; [reflexivity|].
        destruct (t_mode x) eqn:M; subst st; cbn [of_mode] in *; try contradiction; try (apply covers_quotes; auto; fail).
        assert (PB : negb (p =? 92) && (34 =? 34) = true) by lia. rewrite after_str, PB in CL. apply hd_not_doubled in CL.
        assert (W0 : w = []). { destruct w as [|d w]; [reflexivity|]. inversion F; subst. exfalso. apply CL. reflexivity. }
        subst w. apply covers_end; [rewrite after_str, PB; reflexivity|discriminate]. }
    destruct (N.eqb_spec c 39) as [->|N39].
    { injection E as <- <- <- <- <-. exists []. split; [reflexivity|]. split; [reflexivity|]. apply covers_one; [|destruct (t_mode x); discriminate|discriminate].
      destruct (t_mode x) eqn:M; subst st; cbn [of_mode] in *; try contradiction; rewrite ?after_line, ?after_block, ?after_str, ?after_chr; unfold turned; cbn [N.eqb Pos.eqb]; rewrite ?andb_false_r, ?andb_true_r; try reflexivity.
      destruct (negb (p =? 92)); reflexivity. }
    assert (B3 : (c =? 34) = false) by lia. assert (B4 : (c =? 39) = false) by lia.
    destruct (N.eqb_spec c 41) as [->|N41].
    { exists []. destruct (t_mode x) eqn:M; subst st; cbn [of_mode] in *; try contradiction; injection E as <- <- <- <- <-; (split; [reflexivity|]); (split; [reflexivity|]);
        (apply covers_one; [|discriminate|discriminate]); rewrite ?after_line, ?after_block, ?after_str, ?after_chr; unfold turned; cbn [N.eqb Pos.eqb]; rewrite ?andb_false_r; reflexivity. }
    destruct (N.eqb_spec c 47) as [->|N47].
    { injection E as <- <- <- <- <-. exists []. split; [reflexivity|]. split; [reflexivity|]. apply covers_one; [|destruct (t_mode x); discriminate|discriminate].
      destruct (t_mode x) eqn:M; subst st; cbn [of_mode] in *; try contradiction; rewrite ?after_line, ?after_block, ?after_str, ?after_chr; unfold turned; cbn [N.eqb Pos.eqb]; rewrite ?andb_false_r, ?andb_true_r; try reflexivity;
      destruct (p =? 42); reflexivity. }
    assert (B2 : (c =? 47) = false) by lia.
    destruct (N.eqb_spec c 92) as [->|N92].
    { injection E as <- <- <- <- <-. exists []. split; [reflexivity|]. split; [reflexivity|]. apply covers_one; [|destruct (t_mode x); discriminate|discriminate].
      destruct (t_mode x) eqn:M; subst st; cbn [of_mode] in *; try contradiction; rewrite ?after_line, ?after_block, ?after_str, ?after_chr; unfold turned; cbn [N.eqb Pos.eqb]; rewrite ?andb_false_r; try reflexivity;
      destruct (p =? 92); try reflexivity; destruct r; reflexivity. }
    assert (B5 : (c =? 92) = false) by lia.
    injection E as <- <- <- <- <-. exists []. split; [reflexivity|]. split; [reflexivity|]. apply covers_one; [|destruct (t_mode x); discriminate|intros; contradiction].
    destruct (t_mode x) eqn:M; subst st; cbn [of_mode] in *; try contradiction; rewrite ?after_line, ?after_block, ?after_str, ?after_chr; unfold turned; rewrite ?CN, ?B2, ?B3, ?B4, ?B5, ?andb_false_r; reflexivity. }
  clear E. destruct X as (-> & KQ & N10 & w & -> & -> & ls & L & A & D). injection H as <- <- <- <- <-.
  split; [reflexivity|].
  assert (K3 : k1 = COMMENT_TEXT \/ k1 <> COMMENT_TEXT) by (destruct k1; try (left; reflexivity); right; discriminate).
  destruct K3 as [->|K3].
  2: { assert (EQ : forall b, match k1 with COMMENT_TEXT => b | k => k end = k1) by (destruct k1; try reflexivity; contradiction). rewrite EQ.
       split; [exact KQ|]. split; [contradiction|]. exists w, ls. split; [reflexivity|]. split; [reflexivity|]. split; [exact L|]. split; [exact A|exact D]. }
  match goal with |- context[if ?b then Ends _ else COMMENT_TEXT] => destruct b eqn:B end.
  - split; [discriminate|]. split; [discriminate|]. exists w, ls. split; [reflexivity|]. split; [reflexivity|]. split; [exact L|].
    apply andb_prop in B as (B1 & B2).
    assert (R1 : r1 = [] \/ exists u, r1 = 10 :: u).
    { destruct r1 as [|d u]; [left; reflexivity|right]. exists u. f_equal. destruct d as [|d]; [discriminate B1|]. repeat (destruct d as [d|d|]; try discriminate B1; try reflexivity). }
    assert (EA : after st q1 r1 = regions Code r1).
    { destruct R1 as [->|(u & ->)]; [apply after_nil|].
      assert (LN : regions Code (10 :: u) = Code :: regions Code u) by (destruct u; reflexivity).
      assert (CL2 : clear_of (t_onpreprocline x) (10 :: u) (after st q1 (10 :: u))).
      { eapply (clear_app _ (c :: w)); [|change ((c :: w) ++ 10 :: u) with (c :: w ++ 10 :: u); rewrite <- A; exact CL]. cbn [length]. rewrite L. reflexivity. }
      destruct (t_mode x); subst st; cbn [of_mode] in *; try contradiction; try discriminate B2; try (rewrite LN; reflexivity);
        rewrite orb_false_r in B2; cbn in B2; rewrite orb_false_r in B2; rewrite B2 in CL2; exfalso; destruct CL2 as (_ & CL2); first [exact (not_broken Str _ _ (or_introl eq_refl) (CL2 eq_refl))|exact (not_broken Chr _ _ (or_intror eq_refl) (CL2 eq_refl))]. }
    split; [rewrite <- EA; exact A|]. destruct D as [(D1 & D2)|(_ & _ & _ & _ & (e & D))]; [left; split; [exact D1|]|discriminate D].
    intros ->. exfalso. destruct (D2 eq_refl) as (_ & D3). specialize (N10 eq_refl).
    destruct (t_mode x); subst st; cbn [of_mode] in *; try contradiction; try discriminate B2; rewrite (N10 ltac:(tauto)) in B2; discriminate B2.
  - split; [discriminate|]. split.
    + intros _ SL. destruct (t_mode x); subst st; cbn [of_mode] in *; try discriminate SL; try contradiction; rewrite orb_true_r, andb_true_r in B;
        (destruct r1 as [|d u]; [discriminate B|]; cbn [hd]; intros ->; discriminate B).
    + exists w, ls. split; [reflexivity|]. split; [reflexivity|]. split; [exact L|]. split; [exact A|].
      destruct D as [(D1 & D2)|(_ & _ & _ & _ & (e & D))]; [left; split; [exact D1|exact D2]|discriminate D].
Qed.
