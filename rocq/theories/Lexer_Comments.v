(** Comments of any source: to the first star and slash, to before the next newline. *)
From Verif Require Import Base Text_Model Text_Proofs3 Parser_Model Lexer_Model Lexer_Spec Lexer_Proofs Lexer_Proofs2 Lexer_Proofs3 Lexer_Proofs4 Lexer_Proofs6 Lexer_Proofs7 Lexer_Proofs8.
Local Open Scope N_scope.

(** no star and slash in [u], which follows [p] *)
Fixpoint opened (p : N) (u : bytes) : Prop := match u with [] => True | c :: r => ~ (p = 42 /\ c = 47) /\ opened c r end.
Lemma last_change : forall (u : bytes) p q, u <> [] -> last u p = last u q.
Proof. induction u as [|c u IH]; intros p q H; [contradiction|]. destruct u as [|d u]; [reflexivity|]. cbn [last] in *. apply IH. discriminate. Qed.
Lemma last_after : forall (u : bytes) p c, last (c :: u) p = last u c.
Proof. intros [|d u] p c; [reflexivity|]. change (last (c :: d :: u) p) with (last (d :: u) p). apply last_change. discriminate. Qed.
Lemma opened_app : forall u v p, opened p u -> opened (last u p) v -> opened p (u ++ v).
Proof.
  induction u as [|c u IH]; intros v p A B; [exact B|]. destruct A as (A1 & A2). cbn [app opened]. split; [exact A1|]. apply IH; [exact A2|].
  rewrite last_after in B. exact B.
Qed.
Lemma last_snoc : forall (u v : bytes) p, last (u ++ v) p = last v (last u p).
Proof.
  induction u as [|c u IH]; intros v p; [reflexivity|]. cbn [app]. rewrite last_after, IH, last_after. reflexivity.
Qed.
Lemma opened_first : forall p q u, (p = 42 <-> q = 42) -> opened p u -> opened q u.
Proof. intros p q [|c u] H; [exact (fun X => X)|]. cbn. tauto. Qed.
Lemma opened_not : forall u p, opened p u -> ~ occurs [42; 47] u.
Proof.
  intros u p O (a & b & E). subst u. revert p O. induction a as [|c a IH]; intros p O.
  - cbn in O. destruct O as (_ & O & _). apply O. auto.
  - destruct O as (_ & O). exact (IH _ O).
Qed.
Lemma quotes_opened : forall w p, p <> 42 -> Forall (fun d => d = 34) w -> opened p w.
Proof. intros w p N F. revert p N. induction F as [|d w -> F IH]; intros p N; cbn [opened]; [exact Logic.I|]. split; [intros (Q & _); contradiction|]. apply IH. discriminate. Qed.
Lemma quotes_last : forall w p, Forall (fun d => d = 34) w -> p = 34 -> last w p = 34.
Proof. intros w p F ->. induction F as [|d w -> F IH]; [reflexivity|]. rewrite last_after. exact IH. Qed.

Definition is_block (x : textual) : Prop := of_mode (t_mode x) = Block /\ t_noescape x = false.
Definition is_line (x : textual) : Prop := of_mode (t_mode x) = Line /\ t_noescape x = false.
Lemma pass_block : forall x p c t r k t2 r2 q e, is_block x -> text_pass x p c t r = (k, t2, r2, q, e) ->
  e = t_mode x /\ exists w, t2 = t ++ c :: w /\ r = w ++ r2 /\ (q = 42 <-> last w c = 42) /\
    (ends k = true -> p = 42 /\ c = 47 /\ w = []) /\ (ends k = false -> opened p (c :: w)).
Proof.
  intros x p c t r k t2 r2 q e (M & NE) H. unfold text_pass in H. rewrite NE in H.
  match type of H with (match ?m with _ => _ end) = _ => destruct m as ((((k1, t1), r1), q1), e1) eqn:E end.
  assert (X : e1 = t_mode x /\ exists w, t1 = t ++ c :: w /\ r = w ++ r1 /\ (q1 = 42 <-> last w c = 42) /\
    (ends k1 = true -> p = 42 /\ c = 47 /\ w = []) /\ (ends k1 = false -> opened p (c :: w))).
  { assert (ONE : forall k q, k1 = k -> q1 = q -> e1 = t_mode x -> t1 = t ++ [c] -> r1 = r -> (q = 42 <-> c = 42) -> ends k = ((p =? 42) && (c =? 47)) ->
      e1 = t_mode x /\ exists w, t1 = t ++ c :: w /\ r = w ++ r1 /\ (q1 = 42 <-> last w c = 42) /\
      (ends k1 = true -> p = 42 /\ c = 47 /\ w = []) /\ (ends k1 = false -> opened p (c :: w))).
    { intros k0 q0 -> -> -> -> -> Q K. split; [reflexivity|]. exists []. split; [reflexivity|]. split; [reflexivity|]. split; [exact Q|]. rewrite K. split; [intros B; apply andb_prop in B as (B1 & B2); apply N.eqb_eq in B1, B2; auto|]. intros B. split; [|exact Logic.I]. intros (-> & ->). discriminate B. }
    destruct (N.eqb_spec c 10) as [->|N10].
    { injection E as <- <- <- <- <-. eapply ONE; try reflexivity. rewrite andb_false_r. destruct (t_mode x); try discriminate M; reflexivity. }
    destruct ((c <? 32) && negb (c =? 9)) eqn:K.
    { injection E as <- <- <- <- <-. eapply ONE; try reflexivity. cbn. lia. }
    clear K. destruct (N.eqb_spec c 34) as [->|N34].
    { destruct (p =? 92) eqn:P92.
      - injection E as <- <- <- <- <-. eapply ONE; try reflexivity. rewrite andb_false_r. destruct (t_mode x); try discriminate M; reflexivity.
      - destruct (many (is 34) (t ++ [34]) r) as (ta, ra) eqn:MQ. apply many_app in MQ as (w & -> & -> & W & _).
        assert (F : Forall (fun d => d = 34) w) by (eapply Forall_impl; [|exact W]; unfold is; cbn beta; intros d D; apply N.eqb_eq in D; auto).
        injection E as <- <- <- <- <-. split; [reflexivity|]. exists w. rewrite <- app_assoc. split; [reflexivity|]. split; [reflexivity|].
        split; [rewrite (quotes_last w 34 F eq_refl); split; discriminate|]. cbn [negb andb orb].
        split; [destruct (t_mode x); try discriminate M; discriminate|]. intros _. cbn [opened]. split; [intros (_ & Q); discriminate Q|]. apply quotes_opened; [discriminate|exact F]. }
    destruct (N.eqb_spec c 39) as [->|N39].
    { injection E as <- <- <- <- <-. eapply ONE; try reflexivity. rewrite andb_false_r. destruct (t_mode x); try discriminate M; rewrite andb_false_r; reflexivity. }
    destruct (N.eqb_spec c 41) as [->|N41].
    { destruct (t_mode x) eqn:MX; try discriminate M; injection E as <- <- <- <- <-; eapply ONE; try reflexivity; rewrite andb_false_r; reflexivity. }
    destruct (N.eqb_spec c 47) as [->|N47].
    { injection E as <- <- <- <- <-. eapply ONE; try reflexivity. destruct (p =? 42); destruct (t_mode x); try discriminate M; reflexivity. }
    destruct (N.eqb_spec c 92) as [->|N92]; injection E as <- <- <- <- <-; eapply ONE; try reflexivity; try (rewrite andb_false_r; reflexivity).
    destruct (p =? 92); split; discriminate. }
  clear E. destruct X as (-> & w & -> & -> & Q & K1 & K2). injection H as <- <- <- <- <-. split; [reflexivity|]. exists w. split; [reflexivity|]. split; [reflexivity|]. split; [exact Q|].
  assert (G : match k1 with COMMENT_TEXT => if match r1 with [] => true | 10 :: _ => negb (match t_mode x with RAW_STRING_END => true | _ => false end) | _ => false end && ((match t_mode x with STRING_END | RAW_STRING_END | CHAR_END => true | _ => false end && (t_onpreprocline x || match t_mode x with RAW_STRING_END => true | _ => false end)) || match t_mode x with LINE_COMMENT_END | LINE_DOXYGEN_COMMENT_END => true | _ => false end) then Ends (t_mode x) else COMMENT_TEXT | k => k end = k1).
  { destruct k1; try reflexivity. destruct (t_mode x); try discriminate M; cbn [orb andb]; rewrite ?andb_false_r; reflexivity. }
  rewrite G. auto.
Qed.
(** what is left when the token ends without ending the comment *)
Definition cut_off (k : tk) (w r : bytes) : Prop := r = [] \/ (exists c u, r = c :: u /\ control c) \/ exists c, w = [c] /\ control c.
Lemma rule_block : forall n x first p t s k t2 r y, (length s <= n)%nat -> is_block x -> text_rule n x first p t s = (k, t2, r, y) ->
  exists w, t2 = t ++ w /\ s = w ++ r /\
    (ends k = true /\ y = None /\ (exists v, w = v ++ [47] /\ opened p v /\ last v p = 42) \/
     ends k = false /\ y = Some x /\ (k = COMMENT_TEXT \/ k = CONTROL_CHAR) /\ opened p w /\ (r = [] \/ (exists c u, r = c :: u /\ control c) \/ first = true /\ exists c, w = [c] /\ control c)).
Proof.
  induction n as [|n IH]; intros x first p t s k t2 r y L B H.
  { destruct s; [|cbn in L; lia]. cbn [text_rule] in H. injection H as <- <- <- <-. exists []. rewrite app_nil_r. split; [reflexivity|]. split; [reflexivity|]. right. cbn. auto 10. }
  destruct s as [|c s].
  { cbn [text_rule] in H. injection H as <- <- <- <-. exists []. rewrite app_nil_r. split; [reflexivity|]. split; [reflexivity|]. right. cbn. auto 10. }
  cbn [text_rule] in H. destruct (_ || first) eqn:A.
  2: { injection H as <- <- <- <-. exists []. rewrite app_nil_r. split; [reflexivity|]. split; [reflexivity|]. right. split; [reflexivity|]. split; [reflexivity|]. split; [auto|]. split; [exact Logic.I|].
       right. left. exists c, s. split; [reflexivity|]. unfold control. lia. }
  destruct (text_pass x p c t s) as ((((k1, t1), r1), q1), e1) eqn:E. pose proof E as E0. apply pass_app in E0 as (w0 & X1 & _ & K & _).
  apply (pass_block _ _ _ _ _ _ _ _ _ _ B) in E as (-> & w & -> & -> & Q & E1 & E2). rewrite same_textual in H.
  destruct K as [->|[(-> & CC & ->)|(e & ->)]].
  - apply IH in H as (v & -> & -> & D); [|cbn [length] in L; rewrite app_length in L; lia|exact B].
    specialize (E2 eq_refl). assert (LW : last (c :: w) p = 42 <-> q1 = 42) by (rewrite last_after; tauto).
    exists (c :: w ++ v). split; [rewrite <- app_assoc; reflexivity|]. split; [cbn [app]; rewrite <- app_assoc; reflexivity|].
    destruct D as [(D1 & D2 & u & -> & D3 & D4)|(D1 & D2 & D3 & D4 & D5)]; [left|right].
    + split; [exact D1|]. split; [exact D2|]. exists ((c :: w) ++ u). split; [cbn [app]; rewrite <- app_assoc; reflexivity|].
      split; [apply opened_app; [exact E2|]; apply (opened_first q1); [tauto|exact D3]|]. rewrite last_snoc.
      destruct u as [|d u]; [cbn [last] in *; tauto|]. rewrite (last_change (d :: u) _ q1) by discriminate. exact D4.
    + split; [exact D1|]. split; [exact D2|]. split; [exact D3|]. split; [change (c :: w ++ v) with ((c :: w) ++ v); apply opened_app; [exact E2|apply (opened_first q1); [tauto|exact D4]]|].
      destruct D5 as [D5|[D5|(D5 & _)]]; [auto|auto|discriminate D5].
  - injection H as <- <- <- <-. exists (c :: w). split; [reflexivity|]. split; [reflexivity|]. right. split; [reflexivity|]. split; [reflexivity|]. split; [auto|]. split; [exact (E2 eq_refl)|].
    apply app_inv_head in X1. injection X1 as ->. right. right. split; [|exists c; auto]. destruct first; [reflexivity|]. unfold control in CC. lia.
  - injection H as <- <- <- <-. destruct (E1 eq_refl) as (-> & -> & ->). exists [47]. split; [reflexivity|]. split; [reflexivity|]. left. split; [reflexivity|]. split; [reflexivity|]. exists []. cbn. auto.
Qed.
Lemma text_of_app : forall a b, text_of (a ++ b) = text_of a ++ text_of b.
Proof. intros a b. unfold text_of. rewrite map_app. apply concat_app. Qed.
Lemma scan_block : forall n w m x p s l e, (length s <= n)%nat -> is_block x -> scan n w m (Some x) p s = (l, e) ->
  exists c d rest, l = c ++ d /\ s = text_of c ++ rest /\
    ((exists c0 z, c = c0 ++ [z] /\ Forall inner c0 /\ finishes z /\ exists v, text_of c = v ++ [42; 47] /\ opened 0 (v ++ [42])) \/
     d = [] /\ Forall inner c /\ opened 0 (text_of c)).
Proof.
  induction n as [|n IH]; intros w m x p s l e L B H.
  { destruct s; [|cbn in L; lia]. cbn in H. injection H as <- <-. exists [], [], []. split; [reflexivity|]. split; [reflexivity|]. right. cbn. auto. }
  destruct s as [|c s]; [cbn in H; injection H as <- <-; exists [], [], []; split; [reflexivity|]; split; [reflexivity|]; right; cbn; auto|].
  cbn [scan] in H. destruct (next w m (Some x) p (c :: s)) as [((((k, t), r), m2), y)|] eqn:NX.
  2: { unfold next in NX. destruct (text_rule _ _ _ _ _ _) as (((k, t), r), y). discriminate NX. }
  destruct (steps _ p t) as [q|] eqn:ST; [|apply steps_none in ST as (Q & _); discriminate Q].
  match type of H with (let (_, _) := scan n w ?m3 y q r in _) = _ => destruct (scan n w m3 y q r) as (l2, e2) eqn:R end. injection H as <- <-.
  unfold next in NX. destruct (text_rule (length (c :: s)) x true 0 [] (c :: s)) as (((k0, t0), r0), y0) eqn:E. injection NX as <- <- <- <- <-.
  pose proof E as E0. apply rule_app in E0 as (w0 & X0 & X1 & X2 & _ & X3 & _); [|apply Nat.le_refl].
  apply (rule_block _ _ _ _ _ _ _ _ _ _ (Nat.le_refl _) B) in E as (w1 & -> & S1 & D). cbn [app] in X0. subst w0. cbn [app] in *. specialize (X2 ltac:(discriminate) eq_refl).
  destruct D as [(D1 & -> & v & -> & D2 & D3)|(D1 & -> & D2 & D3 & D4)].
  - exists [Tok k0 (v ++ [47]) (line p) (col p)], l2, r0. split; [reflexivity|]. split; [unfold text_of; cbn [map concat k_text]; rewrite app_nil_r; exact S1|]. left. exists [], (Tok k0 (v ++ [47]) (line p) (col p)). split; [reflexivity|]. split; [constructor|].
    split; [destruct k0; try discriminate D1; eexists; reflexivity|].
    assert (VN : v <> []) by (intros ->; discriminate D3). destruct (exists_last VN) as (v1 & b & ->). rewrite last_snoc in D3. cbn [last] in D3. subst b.
    exists v1. split; [unfold text_of; cbn [map concat k_text]; rewrite app_nil_r, <- app_assoc; reflexivity|]. exact D2.
  - apply IH in R as (c1 & d1 & rest & -> & RT & R); [|rewrite S1, app_length in L; destruct w1; [contradiction|cbn in L; lia]|exact B].
    set (z := Tok k0 w1 (line p) (col p)). assert (TZ : text_of (z :: c1) = w1 ++ text_of c1) by reflexivity.
    assert (IZ : inner z) by (unfold inner; cbn; tauto).
    assert (J : forall u v, text_of c1 = u ++ v -> opened 0 u -> opened 0 (w1 ++ u)).
    { intros u v TU O. apply opened_app; [exact D3|]. destruct u as [|b u]; [exact Logic.I|]. destruct D4 as [->|[(b2 & u2 & -> & CB)|(_ & b2 & -> & CB)]].
      - exfalso. rewrite TU in RT. discriminate RT.
      - rewrite TU in RT. injection RT as <- _. destruct O as (_ & O). split; [|exact O]. intros (_ & ->). destruct CB as (CB & _). discriminate CB.
      - cbn [last]. apply (opened_first 0); [|exact O]. split; [discriminate|]. intros ->. destruct CB as (CB & _). discriminate CB. }
    exists (z :: c1), d1, rest. split; [reflexivity|]. split; [rewrite TZ, S1, RT, app_assoc; reflexivity|].
    destruct R as [(c0 & z0 & -> & F & Z & v & V1 & V2)|(-> & F & O)]; [left|right].
    + exists (z :: c0), z0. split; [reflexivity|]. split; [constructor; assumption|]. split; [exact Z|]. exists (w1 ++ v). rewrite TZ, V1, app_assoc. split; [reflexivity|].
      rewrite <- app_assoc. apply (J (v ++ [42]) [47]); [rewrite V1, <- app_assoc; reflexivity|exact V2].
    + split; [reflexivity|]. split; [constructor; assumption|]. rewrite TZ. apply (J (text_of c1) []); [symmetry; apply app_nil_r|exact O].
Qed.

Lemma pass_line : forall x p c t r k t2 r2 q e, is_line x -> text_pass x p c t r = (k, t2, r2, q, e) ->
  e = t_mode x /\ exists w, t2 = t ++ c :: w /\ r = w ++ r2 /\ (c = 10 -> ends k = true /\ w = []) /\
    (c <> 10 -> ~ In 10 (c :: w) /\ (ends k = true -> r2 = [] \/ exists u, r2 = 10 :: u) /\ (k = COMMENT_TEXT -> hd 0 r2 <> 10)).
Proof.
  intros x p c t r k t2 r2 q e (M & NE) H. unfold text_pass in H. rewrite NE in H.
  match type of H with (match ?m with _ => _ end) = _ => destruct m as ((((k1, t1), r1), q1), e1) eqn:E end.
  assert (X : e1 = t_mode x /\ exists w, t1 = t ++ c :: w /\ r = w ++ r1 /\ (c = 10 -> ends k1 = true /\ w = []) /\ (c <> 10 -> ~ In 10 (c :: w) /\ ends k1 = false)).
  { assert (ONE : forall k, k1 = k -> e1 = t_mode x -> t1 = t ++ [c] -> r1 = r -> ends k = (c =? 10) ->
      e1 = t_mode x /\ exists w, t1 = t ++ c :: w /\ r = w ++ r1 /\ (c = 10 -> ends k1 = true /\ w = []) /\ (c <> 10 -> ~ In 10 (c :: w) /\ ends k1 = false)).
    { intros k0 -> -> -> -> K. split; [reflexivity|]. exists []. split; [reflexivity|]. split; [reflexivity|]. rewrite K. split; [intros ->; auto|]. intros N. split; [intros [Q|[]]; congruence|lia]. }
    destruct (N.eqb_spec c 10) as [->|N10].
    { injection E as <- <- <- <- <-. eapply ONE; try reflexivity; destruct (t_mode x); try discriminate M; reflexivity. }
    destruct ((c <? 32) && negb (c =? 9)); [injection E as <- <- <- <- <-; eapply ONE; reflexivity|].
    destruct (N.eqb_spec c 34) as [->|N34].
    { destruct (p =? 92) eqn:P92.
      - injection E as <- <- <- <- <-. eapply ONE; try reflexivity; destruct (t_mode x); try discriminate M; reflexivity.
      - destruct (many (is 34) (t ++ [34]) r) as (ta, ra) eqn:MQ. apply many_app in MQ as (w & -> & -> & W & _).
        injection E as <- <- <- <- <-. split; [reflexivity|]. exists w. rewrite <- app_assoc. split; [reflexivity|]. split; [reflexivity|]. split; [discriminate|].
        intros _. split; [|destruct (t_mode x); try discriminate M; reflexivity]. intros [Q|Q]; [discriminate Q|]. rewrite Forall_forall in W. specialize (W 10 Q). discriminate W. }
    destruct (N.eqb_spec c 39) as [->|N39].
    { injection E as <- <- <- <- <-. eapply ONE; try reflexivity; destruct (t_mode x); try discriminate M; rewrite andb_false_r; reflexivity. }
    destruct (N.eqb_spec c 41) as [->|N41].
    { destruct (t_mode x) eqn:MX; try discriminate M; injection E as <- <- <- <- <-; eapply ONE; reflexivity. }
    destruct (N.eqb_spec c 47) as [->|N47].
    { injection E as <- <- <- <- <-. eapply ONE; try reflexivity; destruct (t_mode x); try discriminate M; rewrite andb_false_r; reflexivity. }
    destruct (N.eqb_spec c 92) as [->|N92]; injection E as <- <- <- <- <-; eapply ONE; reflexivity. }
  clear E. destruct X as (-> & w & -> & -> & Q1 & Q2). injection H as <- <- <- <- <-. split; [reflexivity|]. exists w. split; [reflexivity|]. split; [reflexivity|].
  split; [intros C; destruct (Q1 C) as (K & W); split; [|exact W]; destruct k1; try discriminate K; reflexivity|]. intros C. destruct (Q2 C) as (I & K). split; [exact I|].
  destruct k1; try discriminate K; try (split; discriminate).
  assert (BE : match r1 with [] => true | 10 :: _ => negb (match t_mode x with RAW_STRING_END => true | _ => false end) | _ => false end = true <-> r1 = [] \/ exists u, r1 = 10 :: u).
  { split.
    - intros B1. destruct r1 as [|d u]; [left; reflexivity|right]. exists u. f_equal. destruct d as [|d]; [discriminate B1|]. repeat (destruct d as [d|d|]; try discriminate B1; try reflexivity).
    - intros [->|(u & ->)]; [reflexivity|]. destruct (t_mode x); try discriminate M; reflexivity. }
  assert (LM : ((match t_mode x with STRING_END | RAW_STRING_END | CHAR_END => true | _ => false end && (t_onpreprocline x || match t_mode x with RAW_STRING_END => true | _ => false end)) || match t_mode x with LINE_COMMENT_END | LINE_DOXYGEN_COMMENT_END => true | _ => false end) = true).
  { destruct (t_mode x); try discriminate M; reflexivity. }
  rewrite LM, andb_true_r. match goal with |- context[if ?b then Ends _ else COMMENT_TEXT] => destruct b eqn:BB end; [split; [intros _; apply BE; reflexivity|discriminate]|].
  split; [discriminate|]. intros _ Q. destruct r1 as [|d u]; [discriminate Q|]. cbn [hd] in Q. subst d. assert (X : false = true) by (apply BE; right; eauto). discriminate X.
Qed.
Lemma rule_line : forall n x first p t s k t2 r y, (length s <= n)%nat -> is_line x -> (first = false -> hd 0 s <> 10) -> text_rule n x first p t s = (k, t2, r, y) ->
  exists w, t2 = t ++ w /\ s = w ++ r /\
    (ends k = true /\ y = None /\ (w = [10] \/ ~ In 10 w /\ (r = [] \/ exists u, r = 10 :: u)) \/
     ends k = false /\ y = Some x /\ (k = COMMENT_TEXT \/ k = CONTROL_CHAR) /\ ~ In 10 w).
Proof.
  induction n as [|n IH]; intros x first p t s k t2 r y L B F H.
  { destruct s; [|cbn in L; lia]. cbn [text_rule] in H. injection H as <- <- <- <-. exists []. rewrite app_nil_r. split; [reflexivity|]. split; [reflexivity|]. right. cbn. auto 10. }
  destruct s as [|c s].
  { cbn [text_rule] in H. injection H as <- <- <- <-. exists []. rewrite app_nil_r. split; [reflexivity|]. split; [reflexivity|]. right. cbn. auto 10. }
  cbn [text_rule] in H. destruct (_ || first) eqn:A.
  2: { injection H as <- <- <- <-. exists []. rewrite app_nil_r. split; [reflexivity|]. split; [reflexivity|]. right. cbn. auto 10. }
  destruct (text_pass x p c t s) as ((((k1, t1), r1), q1), e1) eqn:E. pose proof E as E0. apply pass_app in E0 as (w0 & X1 & _ & K & _).
  apply (pass_line _ _ _ _ _ _ _ _ _ _ B) in E as (-> & w & -> & -> & Q1 & Q2). rewrite same_textual in H.
  destruct (N.eq_dec c 10) as [->|NC].
  { destruct (Q1 eq_refl) as (KE & ->). destruct k1; try discriminate KE. injection H as <- <- <- <-. exists [10]. split; [reflexivity|]. split; [reflexivity|]. left. auto. }
  destruct (Q2 NC) as (I & R1 & R2). destruct K as [->|[(-> & CC & _)|(e & ->)]].
  - apply IH in H as (v & -> & -> & D); [|cbn [length] in L; rewrite app_length in L; lia|exact B|intros _; exact (R2 eq_refl)].
    exists (c :: w ++ v). split; [rewrite <- app_assoc; reflexivity|]. split; [cbn [app]; rewrite <- app_assoc; reflexivity|]. specialize (R2 eq_refl).
    destruct D as [(D1 & D2 & [->|(D3 & D4)])|(D1 & D2 & D3 & D4)].
    + exfalso. apply R2. reflexivity.
    + left. split; [exact D1|]. split; [exact D2|]. right. split; [|exact D4]. change (c :: w ++ v) with ((c :: w) ++ v). intros J. apply in_app_or in J as [J|J]; contradiction.
    + right. split; [exact D1|]. split; [exact D2|]. split; [exact D3|]. change (c :: w ++ v) with ((c :: w) ++ v). intros J. apply in_app_or in J as [J|J]; contradiction.
  - injection H as <- <- <- <-. exists (c :: w). split; [reflexivity|]. split; [reflexivity|]. right. auto 10.
  - injection H as <- <- <- <-. exists (c :: w). split; [reflexivity|]. split; [reflexivity|]. left. split; [reflexivity|]. split; [reflexivity|]. right. split; [exact I|exact (R1 eq_refl)].
Qed.
Lemma scan_line : forall n w m x p s l e, (length s <= n)%nat -> is_line x -> scan n w m (Some x) p s = (l, e) ->
  exists c d rest, l = c ++ d /\ s = text_of c ++ rest /\
    ((exists c0 z, c = c0 ++ [z] /\ Forall inner c0 /\ finishes z /\ ~ In 10 (text_of c0) /\
       (k_text z = [10] \/ ~ In 10 (k_text z) /\ (rest = [] \/ exists u, rest = 10 :: u))) \/
     d = [] /\ rest = [] /\ Forall inner c /\ ~ In 10 (text_of c)).
Proof.
  induction n as [|n IH]; intros w m x p s l e L B H.
  { destruct s; [|cbn in L; lia]. cbn in H. injection H as <- <-. exists [], [], []. split; [reflexivity|]. split; [reflexivity|]. right. cbn. auto. }
  destruct s as [|c s]; [cbn in H; injection H as <- <-; exists [], [], []; split; [reflexivity|]; split; [reflexivity|]; right; cbn; auto|].
  cbn [scan] in H. destruct (next w m (Some x) p (c :: s)) as [((((k, t), r), m2), y)|] eqn:NX.
  2: { unfold next in NX. destruct (text_rule _ _ _ _ _ _) as (((k, t), r), y). discriminate NX. }
  destruct (steps _ p t) as [q|] eqn:ST; [|apply steps_none in ST as (Q & _); discriminate Q].
  match type of H with (let (_, _) := scan n w ?m3 y q r in _) = _ => destruct (scan n w m3 y q r) as (l2, e2) eqn:R end. injection H as <- <-.
  unfold next in NX. destruct (text_rule (length (c :: s)) x true 0 [] (c :: s)) as (((k0, t0), r0), y0) eqn:E. injection NX as <- <- <- <- <-.
  pose proof E as E0. apply rule_app in E0 as (w0 & X0 & X1 & X2 & _ & X3 & _); [|apply Nat.le_refl].
  apply (rule_line _ _ _ _ _ _ _ _ _ _ (Nat.le_refl _) B) in E as (w1 & -> & S1 & D); [|discriminate]. cbn [app] in X0. subst w0. cbn [app] in *. specialize (X2 ltac:(discriminate) eq_refl).
  destruct D as [(D1 & -> & D2)|(D1 & -> & D2 & D3)].
  - exists [Tok k0 w1 (line p) (col p)], l2, r0. split; [reflexivity|]. split; [unfold text_of; cbn [map concat k_text]; rewrite app_nil_r; exact S1|]. left.
    exists [], (Tok k0 w1 (line p) (col p)). split; [reflexivity|]. split; [constructor|]. split; [destruct k0; try discriminate D1; eexists; reflexivity|]. split; [exact (fun X => X)|]. exact D2.
  - apply IH in R as (c1 & d1 & rest & -> & RT & R); [|rewrite S1, app_length in L; destruct w1; [contradiction|cbn in L; lia]|exact B].
    set (z := Tok k0 w1 (line p) (col p)). assert (TZ : forall c, text_of (z :: c) = w1 ++ text_of c) by reflexivity.
    assert (IZ : inner z) by (unfold inner; cbn; tauto).
    exists (z :: c1), d1, rest. split; [reflexivity|]. split; [rewrite TZ, S1, RT, app_assoc; reflexivity|].
    destruct R as [(c0 & z0 & -> & F & Z & V1 & V2)|(-> & -> & F & O)]; [left|right].
    + exists (z :: c0), z0. split; [reflexivity|]. split; [constructor; assumption|]. split; [exact Z|]. split; [|exact V2]. rewrite TZ. intros J. apply in_app_or in J as [J|J]; contradiction.
    + split; [reflexivity|]. split; [reflexivity|]. split; [constructor; assumption|]. rewrite TZ. intros J. apply in_app_or in J as [J|J]; contradiction.
Qed.

(** ** Anywhere in a source *)
Lemma cut_block_start : forall lang ms m a, cut lang ms m a -> atstring m = false -> m_type a = BLOCK_COMMENT_START \/ m_type a = JAVADOC_COMMENT_START \/ m_type a = DOXYGEN_COMMENT_START ->
  exists x, m_push a = Some x /\ is_block x.
Proof.
  assert (RT : forall lang ms t k, plain_kind (retype lang ms t k) \/ retype lang ms t k = STRING_START \/ retype lang ms t k = k).
  { intros. unfold retype. destruct (literals lang ms t) as [k0|] eqn:E; [|auto]. destruct (literal_kind _ _ _ _ E) as [Q|(-> & _)]; auto. }
  intros lang ms m a H A K. destruct H as [k t r m2 T F P|c r m2 P|t r m2 T|c r m2 D|t k e r m2 T|t k e r m2 T P|pre k r m2 ne F P NE|q d o r m2 LC F D O|pre k r m2 F P]; cbn [m_type m_push] in *.
  - destruct k; try destruct P; destruct K as [K|[K|K]]; discriminate K.
  - destruct K as [K|[K|K]]; discriminate K.
  - destruct (RT lang ms t LINE_COMMENT_START) as [Q|[Q|Q]]; [|rewrite Q in K; destruct K as [K|[K|K]]; discriminate K..]. destruct K as [K|[K|K]]; rewrite K in Q; destruct Q.
  - destruct (RT lang ms [47; 42; c; 47] WHOLE_COMMENT) as [Q|[Q|Q]]; [|rewrite Q in K; destruct K as [K|[K|K]]; discriminate K..]. destruct K as [K|[K|K]]; rewrite K in Q; destruct Q.
  - assert (KK : k = LINE_COMMENT_START \/ k = LINE_DOXYGEN_COMMENT_START) by tauto.
    destruct (RT lang ms t k) as [Q|[Q|Q]]; [destruct K as [K|[K|K]]; rewrite K in Q; destruct Q|rewrite Q in K; destruct K as [K|[K|K]]; discriminate K|].
    rewrite Q in K. destruct KK as [->| ->]; destruct K as [K|[K|K]]; discriminate K.
  - eexists. split; [reflexivity|]. split; [|exact A]. cbn [t_mode]. destruct P as [P|[P|P]]; injection P as _ ->; reflexivity.
  - assert (KK : plain_kind k \/ k = STRING_START) by (destruct P as [->| ->]; [auto|destruct (RT lang ms (pre ++ [34]) STRING_START) as [Q|[Q|Q]]; rewrite ?Q; auto]).
    destruct KK as [Q| ->]; destruct K as [K|[K|K]]; try discriminate K; rewrite K in Q; destruct Q.
  - match type of K with retype _ _ ?t _ = _ \/ _ => destruct (RT lang ms t STRING_START) as [Q|[Q|Q]] end; [|rewrite Q in K; destruct K as [K|[K|K]]; discriminate K..]. destruct K as [K|[K|K]]; rewrite K in Q; destruct Q.
  - assert (KK : plain_kind k \/ k = STRING_START \/ k = CHAR_START) by (destruct P as [->| ->]; [auto|destruct (RT lang ms (pre ++ [39]) CHAR_START) as [Q|[Q|Q]]; rewrite ?Q; auto]).
    destruct KK as [Q|[-> | ->]]; destruct K as [K|[K|K]]; try discriminate K; rewrite K in Q; destruct Q.
Qed.
Lemma cut_line_start : forall lang ms m a, cut lang ms m a -> atstring m = false -> In lang languages -> m_type a = LINE_COMMENT_START \/ m_type a = LINE_DOXYGEN_COMMENT_START ->
  exists x, m_push a = Some x /\ is_line x.
Proof.
  assert (RT : forall lang ms t k, plain_kind (retype lang ms t k) \/ retype lang ms t k = STRING_START \/ retype lang ms t k = k).
  { intros. unfold retype. destruct (literals lang ms t) as [k0|] eqn:E; [|auto]. destruct (literal_kind _ _ _ _ E) as [Q|(-> & _)]; auto. }
  intros lang ms m a H A LG K. destruct H as [k t r m2 T F P|c r m2 P|t r m2 T|c r m2 D|t k e r m2 T|t k e r m2 T P|pre k r m2 ne F P NE|q d o r m2 LC F D O|pre k r m2 F P]; cbn [m_type m_push] in *.
  - destruct k; try destruct P; destruct K as [K|K]; discriminate K.
  - destruct K as [K|K]; discriminate K.
  - destruct (slash_kinds lang LG) as (S1 & S2). exfalso. revert K. unfold retype, literals. destruct T as [(-> & _)| ->]; [rewrite S1|rewrite S2]; intros [K|K]; discriminate K.
  - destruct (RT lang ms [47; 42; c; 47] WHOLE_COMMENT) as [Q|[Q|Q]]; [|rewrite Q in K; destruct K as [K|K]; discriminate K..]. destruct K as [K|K]; rewrite K in Q; destruct Q.
  - eexists. split; [reflexivity|]. split; [|exact A]. cbn [t_mode]. destruct T as [(_ & _ & ->)|(_ & _ & ->)]; reflexivity.
  - assert (KK : k = BLOCK_COMMENT_START \/ k = JAVADOC_COMMENT_START \/ k = DOXYGEN_COMMENT_START) by (destruct P as [P|[P|P]]; injection P as -> _; auto).
    destruct (RT lang ms t k) as [Q|[Q|Q]]; [destruct K as [K|K]; rewrite K in Q; destruct Q|rewrite Q in K; destruct K as [K|K]; discriminate K|].
    rewrite Q in K. destruct KK as [->|[->| ->]]; destruct K as [K|K]; discriminate K.
  - assert (KK : plain_kind k \/ k = STRING_START) by (destruct P as [->| ->]; [auto|destruct (RT lang ms (pre ++ [34]) STRING_START) as [Q|[Q|Q]]; rewrite ?Q; auto]).
    destruct KK as [Q| ->]; destruct K as [K|K]; try discriminate K; rewrite K in Q; destruct Q.
  - match type of K with retype _ _ ?t _ = _ \/ _ => destruct (RT lang ms t STRING_START) as [Q|[Q|Q]] end; [|rewrite Q in K; destruct K as [K|K]; discriminate K..]. destruct K as [K|K]; rewrite K in Q; destruct Q.
  - assert (KK : plain_kind k \/ k = STRING_START \/ k = CHAR_START) by (destruct P as [->| ->]; [auto|destruct (RT lang ms (pre ++ [39]) CHAR_START) as [Q|[Q|Q]]; rewrite ?Q; auto]).
    destruct KK as [Q|[-> | ->]]; destruct K as [K|K]; try discriminate K; rewrite K in Q; destruct Q.
Qed.
(** a token in the middle: the scan goes on after it *)
Lemma scan_at : forall n w m x p s l e a k b, (length s <= n)%nat -> atstring m = false -> scan n w m x p s = (l, e) -> l = a ++ k :: b ->
  exists n2 m1 x1 p1 m2 x2 p2 r, (length r <= n2)%nat /\ atstring m1 = false /\ next w m1 x1 p1 (k_text k ++ r) = Some (k_type k, k_text k, r, m2, x2) /\
    s = text_of a ++ k_text k ++ r /\ exists m3, scan n2 w m3 x2 p2 r = (b, e).
Proof.
  induction n as [|n IH]; intros w m x p s l e a k b L A H E.
  { destruct s; [|cbn in L; lia]. cbn in H. injection H as <- <-. destruct a; discriminate E. }
  destruct s as [|c s]; [cbn in H; injection H as <- <-; destruct a; discriminate E|].
  cbn [scan] in H. pose proof (next_ok w m x p (c :: s) A ltac:(discriminate)) as NO.
  destruct (next w m x p (c :: s)) as [((((k1, t), r), m2), y)|] eqn:NX; [|injection H as <- <-; destruct a; discriminate E].
  destruct NO as (S1 & S2 & S3 & _).
  destruct (steps _ p t) as [q|]; [|injection H as <- <-; destruct a; discriminate E].
  match type of H with (let (_, _) := scan n w ?m3 y q r in _) = _ => destruct (scan n w m3 y q r) as (l2, e2) eqn:R; assert (A3 : atstring m3 = false) by (destruct x; [exact S3|destruct (is_operator c); exact S3]) end.
  injection H as <- <-. assert (LR : (length r <= n)%nat) by (rewrite S1, app_length in L; destruct t; [contradiction|cbn in L; lia]).
  destruct a as [|t0 a].
  - injection E as <- <-. cbn [k_text k_type]. exists n, m, x, p, m2, y, q, r. rewrite <- S1. split; [exact LR|]. split; [exact A|]. split; [exact NX|]. split; [reflexivity|]. eexists. exact R.
  - injection E as <- E. destruct (IH _ _ _ _ _ _ _ _ _ _ LR A3 R E) as (n2 & m1 & x1 & p1 & m4 & x2 & p2 & r2 & I1 & I2 & I3 & I4 & I5).
    exists n2, m1, x1, p1, m4, x2, p2, r2. split; [exact I1|]. split; [exact I2|]. split; [exact I3|]. split; [|exact I5]. rewrite S1, I4. unfold text_of. cbn [map concat k_text]. rewrite <- app_assoc. reflexivity.
Qed.
Lemma block_comment : forall w s l e a k b, tokens w s = (l, e) -> l = a ++ k :: b -> starts_block k ->
  exists c d rest, b = c ++ d /\ s = text_of a ++ k_text k ++ text_of c ++ rest /\
    ((exists c0 z, c = c0 ++ [z] /\ Forall inner c0 /\ finishes z /\ exists v, text_of c = v ++ [42; 47] /\ ~ occurs [42; 47] (v ++ [42])) \/
     d = [] /\ Forall inner c /\ ~ occurs [42; 47] (text_of c)).
Proof.
  intros w s l e a k b H E SB. destruct (scan_at (length s) w new_main None (Place 1 1) s _ _ _ _ _ (Nat.le_refl _) eq_refl H E) as (n2 & m1 & x1 & p1 & m2 & x2 & p2 & r & LR & A1 & NX & S & m3 & R).
  assert (X : exists x, x2 = Some x /\ is_block x).
  { unfold next in NX. destruct (k_text k ++ r) as [|c u] eqn:T; [discriminate NX|]. destruct x1 as [x1|].
    - destruct (text_rule _ _ _ _ _ _) as (((k0, t0), r0), y0) eqn:TR. injection NX as N1 N2 N3 N4 N5. apply rule_app in TR as (v & _ & _ & _ & K & _); [|apply Nat.le_refl].
      exfalso. unfold starts_block in SB. rewrite <- N1 in SB. destruct K as [->|[(-> & _)|(e0 & ->)]]; destruct SB as [Q|[Q|Q]]; discriminate Q.
    - destruct (main_rule _ _ _ m1 c u) as [m|] eqn:MR; [|discriminate NX]. injection NX as N1 N2 N3 N4 N5. apply main_cut in MR as (C & _); [|exact A1].
      unfold starts_block in SB. rewrite <- N1 in SB. destruct (cut_block_start _ _ _ _ C A1 SB) as (x & P & B). exists x. split; [congruence|exact B]. }
  destruct X as (x & -> & B). apply (scan_block _ _ _ _ _ _ _ _ LR B) in R as (c & d & rest & -> & RT & D).
  exists c, d, rest. split; [reflexivity|]. split; [rewrite S, RT; reflexivity|]. destruct D as [(c0 & z & -> & F & Z & v & V1 & V2)|(-> & F & O)]; [left|right].
  - exists c0, z. split; [reflexivity|]. split; [exact F|]. split; [exact Z|]. exists v. split; [exact V1|]. apply (opened_not _ _ V2).
  - split; [reflexivity|]. split; [exact F|]. apply (opened_not _ _ O).
Qed.
Lemma line_comment : forall w s l e a k b, In (s_lang w) languages -> tokens w s = (l, e) -> l = a ++ k :: b -> starts_line k ->
  exists c d rest, b = c ++ d /\ s = text_of a ++ k_text k ++ text_of c ++ rest /\
    ((exists c0 z, c = c0 ++ [z] /\ Forall inner c0 /\ finishes z /\ ~ In 10 (text_of c0) /\
       (k_text z = [10] \/ ~ In 10 (k_text z) /\ (rest = [] \/ exists u, rest = 10 :: u))) \/
     d = [] /\ rest = [] /\ Forall inner c /\ ~ In 10 (text_of c)).
Proof.
  intros w s l e a k b LG H E SB. destruct (scan_at (length s) w new_main None (Place 1 1) s _ _ _ _ _ (Nat.le_refl _) eq_refl H E) as (n2 & m1 & x1 & p1 & m2 & x2 & p2 & r & LR & A1 & NX & S & m3 & R).
  assert (X : exists x, x2 = Some x /\ is_line x).
  { unfold next in NX. destruct (k_text k ++ r) as [|c u] eqn:T; [discriminate NX|]. destruct x1 as [x1|].
    - destruct (text_rule _ _ _ _ _ _) as (((k0, t0), r0), y0) eqn:TR. injection NX as N1 N2 N3 N4 N5. apply rule_app in TR as (v & _ & _ & _ & K & _); [|apply Nat.le_refl].
      exfalso. unfold starts_line in SB. rewrite <- N1 in SB. destruct K as [->|[(-> & _)|(e0 & ->)]]; destruct SB as [Q|Q]; discriminate Q.
    - destruct (main_rule _ _ _ m1 c u) as [m|] eqn:MR; [|discriminate NX]. injection NX as N1 N2 N3 N4 N5. apply main_cut in MR as (C & _); [|exact A1].
      unfold starts_line in SB. rewrite <- N1 in SB. destruct (cut_line_start _ _ _ _ C A1 LG SB) as (x & P & B). exists x. split; [congruence|exact B]. }
  destruct X as (x & -> & B). apply (scan_line _ _ _ _ _ _ _ _ LR B) in R as (c & d & rest & -> & RT & D).
  exists c, d, rest. split; [reflexivity|]. split; [rewrite S, RT; reflexivity|exact D].
Qed.
