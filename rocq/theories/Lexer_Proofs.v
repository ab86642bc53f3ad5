(** The tokens are the source, piece by piece. *)
From Verif Require Import Base Text_Model Text_Proofs3 Parser_Model Lexer_Model Lexer_Spec.
Local Open Scope N_scope.

(** ** Parts of rules keep the characters *)
Lemma many_app : forall p s t u v, many p t s = (u, v) -> exists w, u = t ++ w /\ s = w ++ v /\ Forall (fun c => p c = true) w /\ match v with c :: _ => p c = false | [] => True end.
Proof.
  intros p. induction s as [|c s IH]; intros t u v H; cbn [many] in H.
  - injection H as <- <-. exists []. rewrite app_nil_r. auto.
  - destruct (p c) eqn:P.
    + destruct (IH _ _ _ H) as (w & -> & -> & F & Q). exists (c :: w). rewrite <- app_assoc. split; [reflexivity|]. split; [reflexivity|]. auto.
    + injection H as <- <-. exists []. rewrite app_nil_r. split; [reflexivity|]. split; [reflexivity|]. split; [constructor|exact P].
Qed.
Lemma opt_app : forall p s t u v, opt p t s = (u, v) -> exists w, u = t ++ w /\ s = w ++ v /\ Forall (fun c => p c = true) w.
Proof.
  intros p [|c s] t u v H; cbn [opt] in H.
  - injection H as <- <-. exists []. rewrite app_nil_r. auto.
  - destruct (p c) eqn:P; injection H as <- <-; [exists [c]|exists []; rewrite app_nil_r]; auto.
Qed.
Lemma constants_app : forall t s i u v, constants t s = (i, u, v) ->
  exists w, u = t ++ w /\ s = w ++ v /\ Forall (fun c => name_char c = true \/ c = 46 \/ c = 43 \/ c = 45) w.
Proof.
  intros t s i u v H. unfold constants in H.
  destruct (many _ t s) as (t1, s1) eqn:E1. apply many_app in E1 as (w1 & -> & -> & F1 & _).
  destruct (many _ (t ++ w1) s1) as (t2, s2) eqn:E2. apply many_app in E2 as (w2 & -> & -> & F2 & _).
  match type of H with (let (_, _) := ?m in _) = _ => destruct m as (t3, s3) eqn:E3 end.
  assert (X3 : exists w3, t3 = ((t ++ w1) ++ w2) ++ w3 /\ s2 = w3 ++ s3 /\ Forall (fun c => name_char c = true \/ c = 46 \/ c = 43 \/ c = 45) w3).
  { destruct s2 as [|c s2]; [injection E3 as <- <-; exists []; rewrite app_nil_r; auto|].
    destruct (N.eq_dec c 101) as [->|NE].
    - destruct (many _ (((t ++ w1) ++ w2) ++ [101]) s2) as (ta, sa) eqn:Ea. apply many_app in Ea as (wa & -> & -> & Fa & _). apply many_app in E3 as (wb & -> & -> & Fb & _).
      exists (101 :: wa ++ wb). split; [cbn [app]; rewrite <- ?app_assoc; reflexivity|]. split; [cbn [app]; rewrite <- ?app_assoc; reflexivity|].
      constructor; [left; reflexivity|]. apply Forall_app. split; eapply Forall_impl; try eassumption; cbn beta; intros x Q; [lia|unfold name_char; rewrite Q; auto].
    - assert (Q : (((t ++ w1) ++ w2), c :: s2) = (t3, s3)) by (destruct c as [|c]; [exact E3|]; repeat (destruct c as [c|c|]; try exact E3; try (exfalso; apply NE; reflexivity))).
      injection Q as <- <-. exists []. rewrite app_nil_r. auto. }
  destruct X3 as (w3 & -> & -> & F3).
  destruct (many (is 105) _ s3) as (t4, s4) eqn:E4. apply many_app in E4 as (w4 & -> & -> & F4 & _).
  match type of H with (let (_, _) := ?m in _) = _ => destruct m as (t5, s5) eqn:E5 end.
  assert (X5 : exists w5, t5 = ((((t ++ w1) ++ w2) ++ w3) ++ w4) ++ w5 /\ s4 = w5 ++ s5 /\ Forall (fun c => name_char c = true) w5).
  { destruct s4 as [|c s4]; [injection E5 as <- <-; exists []; rewrite app_nil_r; auto|]. destruct (name_start c); [|injection E5 as <- <-; exists []; rewrite app_nil_r; auto].
    apply many_app in E5 as (w5 & -> & Q & F5 & _). exists w5. auto. }
  destruct X5 as (w5 & -> & -> & F5). injection H as _ <- <-.
  exists (w1 ++ w2 ++ w3 ++ w4 ++ w5). split; [rewrite <- !app_assoc; reflexivity|]. split; [rewrite <- !app_assoc; reflexivity|].
  repeat (apply Forall_app; split); try assumption.
  - eapply Forall_impl; [|exact F1]. cbn beta. intros c Q. left. unfold name_char, name_start. apply orb_prop in Q as [Q|Q]; rewrite Q; rewrite ?orb_true_r; reflexivity.
  - eapply Forall_impl; [|exact F2]. cbn beta. intros c Q. apply orb_prop in Q as [Q|Q]; [right; left; lia|left; unfold name_char; rewrite Q; reflexivity].
  - eapply Forall_impl; [|exact F4]. unfold is. cbn beta. intros c Q. left. apply N.eqb_eq in Q. subst c. reflexivity.
  - eapply Forall_impl; [|exact F5]. auto.
Qed.

(** ** The kinds the table of literals gives *)
Definition plain_kind (k : tk) : Prop :=
  match k with
  | CONSTANTS | COMPLEX_NUMBER | NAME | WS | EOL | OPERATORS | PREPROC | EOL_BACKSLASH | MACRO_NAME | VISUAL_CXX_ASM | Kw _ => True
  | _ => False
  end.
Definition kind_b (k : tk) : bool := match k with OPERATORS | VISUAL_CXX_ASM | Kw _ => true | _ => false end.
Lemma table_kinds : forallb (fun e => match snd (fst e) with STRING_START => existsb (N.eqb 34) (fst (fst e)) | k => kind_b k && negb (existsb (N.eqb 34) (fst (fst e))) end) keyword_map = true.
Proof. vm_compute. reflexivity. Qed.
Lemma keyword_in : forall lang t k, keyword_of lang t = Some k -> exists l, In (t, k, l) keyword_map /\ inLanguage lang l = true.
Proof.
  intros lang t k H. unfold keyword_of in H. destruct (find _ _) as [((n, k0), l)|] eqn:F; [|discriminate H]. injection H as ->.
  apply find_some in F as (I & Q). apply in_rev in I. cbn [fst snd] in Q. apply andb_prop in Q as (Q & L). apply beqb_true in Q. subst n. exists l. auto.
Qed.
Lemma macro_kind : forall ms t k, macro_of ms t = Some k -> k = MACRO_NAME \/ exists n, k = Kw n.
Proof.
  induction ms as [|(n, ty) ms IH]; intros t k H; cbn [macro_of] in H; [discriminate H|].
  destruct (macro_of ms t) as [k0|] eqn:E; [injection H as <-; exact (IH _ _ E)|]. destruct (beqb n t); [|discriminate H].
  unfold macro_token in H. repeat match type of H with (if ?b then _ else _) = _ => destruct b end; try discriminate H; injection H as <-; eauto.
Qed.
Lemma literal_kind : forall lang ms t k, literals lang ms t = Some k -> plain_kind k \/ k = STRING_START /\ In 34 t.
Proof.
  intros lang ms t k H. unfold literals in H. destruct (keyword_of lang t) as [k0|] eqn:E.
  - injection H as ->. apply keyword_in in E as (l & I & _). pose proof table_kinds as T. rewrite forallb_forall in T. specialize (T _ I). cbn [fst snd] in T.
    destruct k; try discriminate T; try (left; exact Logic.I). right. split; [reflexivity|]. apply existsb_exists in T as (x & J & Q). apply N.eqb_eq in Q. subst x. exact J.
  - apply macro_kind in H as [->|(n & ->)]; left; exact Logic.I.
Qed.
Lemma keyword_string : forall lang t k, keyword_of lang t = Some k -> In 34 t -> k = STRING_START.
Proof.
  intros lang t k H J. apply keyword_in in H as (l & I & _). pose proof table_kinds as T. rewrite forallb_forall in T. specialize (T _ I). cbn [fst snd] in T.
  assert (Q : existsb (N.eqb 34) t = true) by (apply existsb_exists; exists 34; split; [exact J|reflexivity]).
  destruct k; cbn beta iota in T; rewrite ?Q in T; cbn in T; congruence || discriminate T.
Qed.
Lemma literal_string : forall lang ms t, In 34 t -> Forall (fun m => ~ In 34 (fst m)) ms -> literals lang ms t = None \/ literals lang ms t = Some STRING_START.
Proof.
  intros lang ms t J F. unfold literals. destruct (keyword_of lang t) as [k|] eqn:E; [right; rewrite (keyword_string _ _ _ E J); reflexivity|left].
  induction F as [|(n, ty) ms N F IH]; cbn [macro_of]; [reflexivity|]. rewrite IH. destruct (beqb n t) eqn:Q; [|reflexivity]. apply beqb_true in Q. subst n. contradiction.
Qed.
Lemma retyped : forall lang ms t k, plain_kind k -> ~ In 34 t -> plain_kind (match literals lang ms t with Some k => k | None => k end).
Proof. intros lang ms t k P N. destruct (literals lang ms t) as [k0|] eqn:E; [|exact P]. destruct (literal_kind _ _ _ _ E) as [Q|(_ & Q)]; [exact Q|contradiction]. Qed.
