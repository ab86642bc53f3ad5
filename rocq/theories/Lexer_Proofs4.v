(** The whole token stream: every character in a token, control characters alone. *)
From Verif Require Import Base Text_Model Text_Proofs3 Parser_Model Lexer_Model Lexer_Spec Lexer_Proofs Lexer_Proofs2 Lexer_Proofs3.
Local Open Scope N_scope.

Lemma retype_control : forall lang ms t k, k <> CONTROL_CHAR -> retype lang ms t k <> CONTROL_CHAR.
Proof. intros lang ms t k NE. unfold retype. destruct (literals lang ms t) as [k0|] eqn:E; [|exact NE]. destruct (literal_kind _ _ _ _ E) as [Q|(-> & _)]; [destruct k0; try destruct Q; discriminate|discriminate]. Qed.
Lemma code_controls : forall t, Forall code_char t -> Forall (fun c => ~ control c) t.
Proof. intros t F. eapply Forall_impl; [|exact F]. unfold code_char. cbn beta. tauto. Qed.
Definition raw (x : option textual) : Prop := exists y, x = Some y /\ t_mode y = RAW_STRING_END.
Lemma cut_ok : forall lang ms m a, cut lang ms m a -> m_text a <> [] /\ (m_type a = CONTROL_CHAR -> exists c, m_text a = [c] /\ control c) /\
  (m_type a <> CONTROL_CHAR -> raw (m_push a) \/ Forall (fun c => ~ control c) (m_text a)) /\ (raw (m_push a) -> inLanguage lang CXX = true /\ occurs [82; 34] (m_text a)).
Proof.
  assert (L : forall b, Forall (fun c => (32 <=? c) = true) b -> Forall (fun c => ~ control c) b).
  { intros b F. eapply Forall_impl; [|exact F]. cbn beta. intros c Q (R & _). lia. }
  intros lang ms m a H. destruct H as [k t r m2 T F K|c r m2 K|t r m2 T|c r m2 D|t k e r m2 T|t k e r m2 T K|pre k r m2 ne F K NE|q d o r m2 LG F D O|pre k r m2 F K]; cbn [m_text m_type m_push].
  - split; [exact T|]. split; [intros ->; destruct K|]. split; [intros _; right; apply code_controls, F|intros (y & Q & _); discriminate Q].
  - split; [discriminate|]. split; [intros _; exists c; auto|]. split; [intros Q; contradiction|intros (y & Q & _); discriminate Q].
  - split; [destruct T as [(-> & _)| ->]; discriminate|]. split; [intros Q; exfalso; revert Q; apply retype_control; discriminate|].
    split; [intros _; right; destruct T as [(-> & _)| ->]; apply L; repeat constructor|intros (y & Q & _); discriminate Q].
  - split; [discriminate|]. split; [intros Q; exfalso; revert Q; apply retype_control; discriminate|].
    split; [intros _; right; destruct D as [-> | ->]; apply L; repeat constructor|intros (y & Q & _); discriminate Q].
  - assert (TT : t = [47; 47] \/ t = [47; 47; 47] \/ t = [47; 47; 33]) by tauto. assert (KK : k <> CONTROL_CHAR) by (destruct T as [(_ & -> & _)|(_ & -> & _)]; discriminate).
    assert (E : e <> RAW_STRING_END) by (destruct T as [(_ & _ & ->)|(_ & _ & ->)]; discriminate). clear T.
    split; [destruct TT as [->|[->| ->]]; discriminate|]. split; [intros Q; exfalso; revert Q; apply retype_control, KK|].
    split; [intros _; right; destruct TT as [->|[->| ->]]; apply L; repeat constructor|intros (y & Q & R); injection Q as <-; contradiction].
  - assert (TT : t = [47; 42] \/ t = [47; 42; 42] \/ t = [47; 42; 33]) by tauto. assert (KK : k <> CONTROL_CHAR /\ e <> RAW_STRING_END) by (destruct K as [K|[K|K]]; injection K as -> ->; split; discriminate). destruct KK as (KK & E).
    split; [destruct TT as [->|[->| ->]]; discriminate|]. split; [intros Q; exfalso; revert Q; apply retype_control, KK|].
    split; [intros _; right; destruct TT as [->|[->| ->]]; apply L; repeat constructor|intros (y & Q & R); injection Q as <-; contradiction].
  - split; [destruct pre; discriminate|]. split; [intros Q; exfalso; destruct K as [->| ->]; [discriminate Q|revert Q; apply retype_control; discriminate]|].
    split; [intros _; right; apply Forall_app; split; [apply code_controls, F|apply L; repeat constructor]|intros (y & Q & R); injection Q as <-; discriminate R].
  - split; [destruct q; discriminate|]. split; [intros Q; exfalso; revert Q; apply retype_control; discriminate|].
    split; [intros _; left; eexists; split; reflexivity|]. intros _. split; [exact LG|]. exists q, (d ++ o). rewrite <- app_assoc. reflexivity.
  - split; [destruct pre; discriminate|]. split; [intros Q; exfalso; destruct K as [->| ->]; [discriminate Q|revert Q; apply retype_control; discriminate]|].
    split; [intros _; right; apply Forall_app; split; [apply code_controls, F|apply L; repeat constructor]|intros (y & Q & R); injection Q as <-; discriminate R].
Qed.
(** the text lexer never starts a raw string *)
Lemma pass_raw : forall x p c t r k t2 r2 q e, text_pass x p c t r = (k, t2, r2, q, e) -> e = RAW_STRING_END -> t_mode x = RAW_STRING_END.
Proof.
  intros x p c t r k t2 r2 q e H ->. unfold text_pass in H.
  match type of H with (match ?m with _ => _ end) = _ => destruct m as ((((k1, t1), r1), q1), e1) eqn:E end. injection H as _ _ _ _ ->.
  destruct (t_mode x); try reflexivity; exfalso; cbv beta iota zeta in E;
  repeat match type of E with (if ?b then _ else _) = _ => destruct b end; try (injection E as _ _ _ _ Q; discriminate Q);
  destruct (if p =? 92 then _ else _); injection E as _ _ _ _ Q; discriminate Q.
Qed.
Lemma rule_raw : forall n x first p t s k t2 r y, text_rule n x first p t s = (k, t2, r, y) -> raw y -> t_mode x = RAW_STRING_END.
Proof.
  induction n as [|n IH]; intros x first p t s k t2 r y H (z & -> & R).
  { cbn [text_rule] in H. injection H as _ _ _ ->. exact R. }
  destruct s as [|c s]; cbn [text_rule] in H; [injection H as _ _ _ ->; exact R|].
  destruct (_ || first); [|injection H as _ _ _ ->; exact R].
  destruct (text_pass x p c t s) as ((((k1, t1), r1), q1), e1) eqn:E.
  apply (pass_raw _ _ _ _ _ _ _ _ _ _ E). destruct k1; try (injection H as _ _ _ <-; exact R); try discriminate H.
  exact (IH _ _ _ _ _ _ _ _ _ H (ex_intro _ z (conj eq_refl R))).
Qed.
Lemma steps_none : forall tabsize t p, steps tabsize p t = None -> tabsize = 0 /\ In 9 t.
Proof.
  intros tabsize. induction t as [|c t IH]; intros p H; cbn [steps] in H; [discriminate H|].
  destruct (step tabsize p c) as [q|] eqn:E; [destruct (IH q H); split; [assumption|right; assumption]|].
  unfold step in E. destruct (c =? 10); [discriminate E|]. destruct (N.eqb_spec c 9) as [->|_]; [|discriminate E].
  destruct (N.eqb_spec tabsize 0); [|discriminate E]. split; [assumption|left; reflexivity].
Qed.
Definition whole (t : tok) : Prop := k_text t <> [] /\ (k_type t = CONTROL_CHAR -> exists c, k_text t = [c] /\ control c).
Lemma next_ok : forall w m x p s, atstring m = false -> s <> [] ->
  match next w m x p s with
  | Some (k, t, r, m2, y) => s = t ++ r /\ t <> [] /\ atstring m2 = false /\ (k = CONTROL_CHAR -> exists c, t = [c] /\ control c) /\
      (k <> CONTROL_CHAR -> raw x \/ raw y \/ Forall (fun c => ~ control c) t) /\ (raw y -> raw x \/ inLanguage (s_lang w) CXX = true /\ occurs [82; 34] t)
  | None => x = None /\ exists c r, s = c :: r /\ (c < 256 -> c = 127 \/ c = 13)
  end.
Proof.
  intros w m x p [|c r] A NE; [contradiction|]. unfold next. destruct x as [x|].
  - destruct (text_rule (length (c :: r)) x true 0 [] (c :: r)) as (((k, t), r2), y) eqn:E.
    pose proof (rule_raw _ _ _ _ _ _ _ _ _ _ E) as R. apply rule_app in E as (v & -> & SV & V & _ & _ & VC & VV); [|apply Nat.le_refl].
    split; [exact SV|]. split; [apply V; [exact NE|reflexivity]|]. split; [exact A|]. split; [exact VC|]. split; [|intros Q; left; exists x; split; [reflexivity|exact (R Q)]].
    intros K. destruct VV as [(VV & _)|VV]; [left; exists x; auto|right; right; exact (VV K)].
  - destruct (main_rule _ _ _ m c r) as [a|] eqn:E.
    + apply main_cut in E as (E1 & E2 & E3); [|exact A]. apply cut_ok in E1 as (C1 & C2 & C3 & C4). rewrite E2. split; [reflexivity|]. split; [exact C1|]. split; [exact E3|]. split; [exact C2|].
      split; [intros K; destruct (C3 K); auto|]. intros Q. right. exact (C4 Q).
    + split; [reflexivity|]. exists c, r. split; [reflexivity|]. intros L. exact (main_none _ _ _ _ _ _ E L).
Qed.
Lemma scan_ok : forall n w m x p s l e, (length s <= n)%nat -> atstring m = false -> scan n w m x p s = (l, e) ->
  exists rest, s = text_of l ++ rest /\ Forall whole l /\
    match e with
    | AtEnd => rest = []
    | NoRule u => u = rest /\ exists c r, rest = c :: r /\ (c < 256 -> c = 127 \/ c = 13)
    | DivisionByZero => s_tabsize w = 0 /\ In 9 rest
    | NoFuel => False
    end.
Proof.
  induction n as [|n IH]; intros w m x p s l e L A H.
  { destruct s; [|cbn in L; lia]. cbn in H. injection H as <- <-. exists []. auto. }
  destruct s as [|c s]; [cbn in H; injection H as <- <-; exists []; auto|].
  cbn [scan] in H. pose proof (next_ok w m x p (c :: s) A ltac:(discriminate)) as NX.
  destruct (next w m x p (c :: s)) as [((((k, t), r), m2), y)|].
  - destruct NX as (E & T & A2 & C1 & _). destruct (steps _ p t) as [q|] eqn:S.
    + match type of H with (let (_, _) := scan n w ?m3 y q r in _) = _ => destruct (scan n w m3 y q r) as (l2, e2) eqn:R; assert (A3 : atstring m3 = false) by (destruct x; [exact A2|destruct (is_operator c); exact A2]) end.
      injection H as <- <-. apply IH in R as (rest & -> & W & Q); [|rewrite E, app_length in L; destruct t; [contradiction|cbn in L; lia]|exact A3].
      exists rest. split; [rewrite E; unfold text_of; cbn [map concat k_text]; rewrite <- app_assoc; reflexivity|]. split; [|exact Q]. constructor; [split; assumption|exact W].
    + injection H as <- <-. exists (c :: s). split; [reflexivity|]. split; [constructor|]. destruct (steps_none _ _ _ S) as (Z & I). destruct x; [discriminate Z|]. split; [exact Z|]. rewrite E. apply in_or_app. left. exact I.
  - injection H as <- <-. exists (c :: s). split; [reflexivity|]. split; [constructor|]. split; [reflexivity|]. exact (proj2 NX).
Qed.
Lemma occurs_l : forall x a b, occurs x a -> occurs x (a ++ b).
Proof. intros x a b (u & v & ->). exists u, (v ++ b). rewrite <- !app_assoc. reflexivity. Qed.
Lemma occurs_r : forall x a b, occurs x b -> occurs x (a ++ b).
Proof. intros x a b (u & v & ->). exists (a ++ u), v. rewrite <- !app_assoc. reflexivity. Qed.
Definition unmixed (t : tok) : Prop := k_type t <> CONTROL_CHAR -> Forall (fun c => ~ control c) (k_text t).
Lemma scan_controls : forall n w m x p s l e, atstring m = false -> ~ raw x -> inLanguage (s_lang w) CXX = false \/ ~ occurs [82; 34] s ->
  scan n w m x p s = (l, e) -> Forall unmixed l.
Proof.
  induction n as [|n IH]; intros w m x p s l e A RX SF H.
  { destruct s; cbn in H; injection H as <- <-; constructor. }
  destruct s as [|c s]; [cbn in H; injection H as <- <-; constructor|].
  cbn [scan] in H. pose proof (next_ok w m x p (c :: s) A ltac:(discriminate)) as NX.
  destruct (next w m x p (c :: s)) as [((((k, t), r), m2), y)|]; [|injection H as <- <-; constructor].
  destruct NX as (E & T & A2 & C1 & C2 & C3). destruct (steps _ p t) as [q|] eqn:S; [|injection H as <- <-; constructor].
  match type of H with (let (_, _) := scan n w ?m3 y q r in _) = _ => destruct (scan n w m3 y q r) as (l2, e2) eqn:R; assert (A3 : atstring m3 = false) by (destruct x; [exact A2|destruct (is_operator c); exact A2]) end.
  assert (RY : ~ raw y). { intros Q. destruct (C3 Q) as [Q1|(Q1 & Q2)]; [exact (RX Q1)|]. destruct SF as [SF|SF]; [congruence|]. apply SF. rewrite E. apply occurs_l, Q2. }
  injection H as <- <-. constructor.
  - intros K. destruct (C2 K) as [Q|[Q|Q]]; [contradiction|contradiction|exact Q].
  - eapply IH; [exact A3|exact RY| |exact R]. destruct SF as [SF|SF]; [left; exact SF|right; intros Q; apply SF; rewrite E; apply occurs_r, Q].
Qed.
