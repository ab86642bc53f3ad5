(** Raw strings and whole words, anywhere in a source. *)
From Verif Require Import Base Text_Model Text_Proofs3 Parser_Model Lexer_Model Lexer_Spec Lexer_Proofs Lexer_Proofs2 Lexer_Proofs3 Lexer_Proofs4 Lexer_Proofs6 Lexer_Proofs7 Lexer_Proofs8 Lexer_Proofs9 Lexer_Comments Lexer_Raw.
Local Open Scope N_scope.

Definition quotes (q : bytes) : Prop := Forall (fun c => c = 34) q.
(** the quote after the delimiter *)
Lemma pass_quote : forall d t r, exists q r2, text_pass (Textual STRING_END false false d) 41 34 t r = (Ends STRING_END, t ++ 34 :: q, r2, 34, STRING_END) /\ r = q ++ r2 /\ quotes q.
Proof.
  intros d t r. unfold text_pass. cbn [t_mode t_onpreprocline t_noescape t_delimiter andb orb negb N.eqb Pos.eqb N.ltb N.compare Pos.compare Pos.compare_cont].
  destruct (many (is 34) (t ++ [34]) r) as (t2, r2) eqn:M. apply many_app in M as (q & -> & -> & W & _). exists q, r2. split; [rewrite <- app_assoc; reflexivity|]. split; [reflexivity|].
  eapply Forall_impl; [|exact W]. cbn beta. intros c Q. unfold is in Q. lia.
Qed.
Lemma rule_in_raw : forall n d x first p t s k t2 r y, (length s <= n)%nat -> plain_delimiter d -> is_raw d x -> text_rule n x first p t s = (k, t2, r, y) ->
  exists u, t2 = t ++ u /\ s = u ++ r /\
    ((k = COMMENT_TEXT \/ k = CONTROL_CHAR) /\ y = Some x /\ unclosed d u r \/
     k = Ends RAW_STRING_END /\ y = None /\ r = [] /\ unclosed d u [] \/
     k = Ends STRING_END /\ y = None /\ exists v q, u = v ++ close_of d ++ q /\ quotes q /\ unclosed d v (close_of d ++ q ++ r)).
Proof.
  induction n as [|n IH]; intros d x first p t s k t2 r y L PD X H.
  { destruct s; [|cbn in L; lia]. cbn [text_rule] in H. injection H as <- <- <- <-. exists []. rewrite app_nil_r. split; [reflexivity|]. split; [reflexivity|]. left. split; [auto|]. split; [reflexivity|apply unclosed_nil]. }
  destruct s as [|c s].
  { cbn [text_rule] in H. injection H as <- <- <- <-. exists []. rewrite app_nil_r. split; [reflexivity|]. split; [reflexivity|]. left. split; [auto|]. split; [reflexivity|apply unclosed_nil]. }
  cbn [text_rule] in H. destruct (_ || first) eqn:A.
  2: { injection H as <- <- <- <-. exists []. rewrite app_nil_r. split; [reflexivity|]. split; [reflexivity|]. left. split; [auto|]. split; [reflexivity|apply unclosed_nil]. }
  destruct (text_pass x p c t s) as ((((k1, t1), r1), q1), e1) eqn:E.
  apply (pass_in_raw d _ _ _ _ _ _ _ _ _ _ PD X) in E as (w & -> & -> & D).
  destruct D as [(K & -> & U)|[(-> & -> & U)|(-> & -> & W & -> & r3 & ->)]].
  - rewrite X in H. cbn [t_onpreprocline t_noescape t_delimiter] in H. rewrite <- X in H. destruct K as [->| ->].
    + apply (IH d) in H as (u & -> & -> & D); [|cbn [length] in L; rewrite app_length in L; lia|exact PD|exact X]. exists ((c :: w) ++ u). split; [rewrite app_assoc; reflexivity|]. split; [cbn [app]; rewrite <- app_assoc; reflexivity|].
      destruct D as [(K & -> & V)|[(-> & -> & -> & V)|(-> & -> & v & q & -> & Q & V)]].
      * left. split; [exact K|]. split; [reflexivity|]. apply unclosed_app; assumption.
      * right. left. split; [reflexivity|]. split; [reflexivity|]. split; [reflexivity|]. apply unclosed_app; assumption.
      * right. right. split; [reflexivity|]. split; [reflexivity|]. exists ((c :: w) ++ v), q. split; [rewrite <- app_assoc; reflexivity|]. split; [exact Q|]. apply unclosed_app; [|exact V]. rewrite <- !app_assoc in U. exact U.
    + injection H as <- <- <- <-. exists (c :: w). split; [reflexivity|]. split; [reflexivity|]. left. auto.
  - injection H as <- <- <- <-. exists (c :: w). split; [reflexivity|]. split; [reflexivity|]. right. left. auto.
  - rewrite X in H. cbn [t_onpreprocline t_noescape t_delimiter] in H. destruct n as [|n]; [cbn [length] in L; rewrite app_length in L; cbn [length] in L; lia|].
    change (text_rule (S n) (Textual STRING_END false false d) false 41 (t ++ c :: w) (34 :: r3)) with
      (let '(k, t, r, q, e) := text_pass (Textual STRING_END false false d) 41 34 (t ++ c :: w) r3 in
       let x := Textual e false false d in
       match k with COMMENT_TEXT => text_rule n x false q t r | Ends _ => (k, t, r, None) | _ => (k, t, r, Some x) end) in H.
    destruct (pass_quote d (t ++ c :: w) r3) as (q & r4 & EQ & -> & Q). rewrite EQ in H. cbv zeta in H. injection H as <- <- <- <-.
    exists (close_of d ++ q). rewrite W. unfold close_of. split; [repeat (rewrite <- ?app_assoc; cbn [app]); reflexivity|]. split; [change (c :: w ++ 34 :: q ++ r4) with ((c :: w) ++ 34 :: q ++ r4); rewrite W; repeat (rewrite <- ?app_assoc; cbn [app]); reflexivity|].
    right. right. split; [reflexivity|]. split; [reflexivity|]. exists [], q. split; [reflexivity|]. split; [exact Q|]. apply unclosed_nil.
Qed.
Lemma scan_in_raw : forall n d w m x p s l e, (length s <= n)%nat -> plain_delimiter d -> is_raw d x -> scan n w m (Some x) p s = (l, e) ->
  exists c b rest, l = c ++ b /\ s = text_of c ++ rest /\
    ((exists c0 z, c = c0 ++ [z] /\ Forall inner c0 /\ k_type z = Ends STRING_END /\ exists v q, text_of c = v ++ close_of d ++ q /\ quotes q /\ unclosed d v (close_of d ++ q ++ rest)) \/
     b = [] /\ rest = [] /\ Forall (fun t => inner t \/ finishes t) c /\ unclosed d (text_of c) []).
Proof.
  induction n as [|n IH]; intros d w m x p s l e L PD X H.
  { destruct s; [|cbn in L; lia]. cbn in H. injection H as <- <-. exists [], [], []. split; [reflexivity|]. split; [reflexivity|]. right. split; [reflexivity|]. split; [reflexivity|]. split; [constructor|apply unclosed_nil]. }
  destruct s as [|c s]; [cbn in H; injection H as <- <-; exists [], [], []; split; [reflexivity|]; split; [reflexivity|]; right; split; [reflexivity|]; split; [reflexivity|]; split; [constructor|apply unclosed_nil]|].
  cbn [scan] in H. destruct (next w m (Some x) p (c :: s)) as [((((k, t), r), m2), y)|] eqn:NX.
  2: { unfold next in NX. destruct (text_rule _ _ _ _ _ _) as (((k, t), r), y). discriminate NX. }
  destruct (steps _ p t) as [q|] eqn:ST; [|apply steps_none in ST as (Q & _); discriminate Q].
  match type of H with (let (_, _) := scan n w ?m3 y q r in _) = _ => destruct (scan n w m3 y q r) as (l2, e2) eqn:R end. injection H as <- <-.
  unfold next in NX. destruct (text_rule (length (c :: s)) x true 0 [] (c :: s)) as (((k0, t0), r0), y0) eqn:E. injection NX as <- <- <- <- <-.
  pose proof E as E0. apply rule_app in E0 as (w0 & X0 & X1 & X2 & _ & X3 & _); [|apply Nat.le_refl].
  apply (rule_in_raw _ d _ _ _ _ _ _ _ _ _ (Nat.le_refl _) PD X) in E as (w1 & -> & S1 & D). cbn [app] in X0. subst w0. cbn [app] in *. specialize (X2 ltac:(discriminate) eq_refl).
  set (z := Tok k0 w1 (line p) (col p)). assert (TZ : forall l, text_of (z :: l) = w1 ++ text_of l) by reflexivity.
  destruct D as [(K & -> & U)|[(-> & -> & -> & U)|(-> & -> & v & q0 & -> & Q & U)]].
  - apply (IH d) in R as (c1 & d1 & rest & -> & RT & R); [|rewrite S1, app_length in L; destruct w1; [contradiction|cbn in L; lia]|exact PD|exact X]. rewrite RT in U.
    exists (z :: c1), d1, rest. split; [reflexivity|]. split; [rewrite TZ, S1, RT, app_assoc; reflexivity|].
    destruct R as [(c0 & z0 & -> & F & Z & v & q1 & V1 & V2 & V3)|(-> & -> & F & O)]; [left|right].
    + exists (z :: c0), z0. split; [reflexivity|]. split; [constructor; assumption|]. split; [exact Z|]. exists (w1 ++ v), q1. rewrite TZ, V1, app_assoc. split; [reflexivity|]. split; [exact V2|].
      apply unclosed_app; [|exact V3]. rewrite V1, <- !app_assoc in U. exact U.
    + split; [reflexivity|]. split; [reflexivity|]. split; [constructor; [left; exact K|exact F]|]. rewrite TZ. apply unclosed_app; [exact U|exact O].
  - destruct n as [|n]; cbn [scan] in R; injection R as <- <-; exists [z], [], []; (split; [reflexivity|]); (split; [rewrite TZ; change (text_of []) with (@nil N); rewrite !app_nil_r in *; exact S1|]); right; (split; [reflexivity|]); (split; [reflexivity|]);
      (split; [constructor; [right; eexists; reflexivity|constructor]|]); rewrite TZ; cbn; rewrite app_nil_r; exact U.
  - exists [z], l2, r0. split; [reflexivity|]. split; [rewrite TZ; cbn; rewrite app_nil_r; exact S1|]. left. exists [], z. split; [reflexivity|]. split; [constructor|]. split; [reflexivity|].
    exists v, q0. split; [rewrite TZ; cbn; apply app_nil_r|]. split; assumption.
Qed.

(** the main lexer at a token, and that it is not in a directive *)
Lemma scan_at_pre : forall n w m x p s l e a k b, (length s <= n)%nat -> atstring m = false -> simple_macros (s_macros w) -> onpreprocline m = false -> Forall (fun t => k_type t <> PREPROC) a ->
  scan n w m x p s = (l, e) -> l = a ++ k :: b ->
  exists n2 m1 x1 p1 m2 x2 p2 r, (length r <= n2)%nat /\ atstring m1 = false /\ onpreprocline m1 = false /\ next w m1 x1 p1 (k_text k ++ r) = Some (k_type k, k_text k, r, m2, x2) /\
    s = text_of a ++ k_text k ++ r /\ exists m3, scan n2 w m3 x2 p2 r = (b, e).
Proof.
  induction n as [|n IH]; intros w m x p s l e a k b L A SM O F H E.
  { destruct s; [|cbn in L; lia]. cbn in H. injection H as <- <-. destruct a; discriminate E. }
  destruct s as [|c s]; [cbn in H; injection H as <- <-; destruct a; discriminate E|].
  cbn [scan] in H. pose proof (next_ok w m x p (c :: s) A ltac:(discriminate)) as NO.
  destruct (next w m x p (c :: s)) as [((((k1, t), r), m2), y)|] eqn:NX; [|injection H as <- <-; destruct a; discriminate E].
  destruct NO as (S1 & S2 & S3 & _).
  destruct (steps _ p t) as [q|]; [|injection H as <- <-; destruct a; discriminate E].
  match type of H with (let (_, _) := scan n w ?m3 y q r in _) = _ => destruct (scan n w m3 y q r) as (l2, e2) eqn:R; assert (A3 : atstring m3 = false) by (destruct x; [exact S3|destruct (is_operator c); exact S3]);
    assert (O3 : k1 <> PREPROC -> onpreprocline m3 = false) end.
  { intros NP. unfold next in NX. destruct x as [x|]; [destruct (text_rule _ _ _ _ _ _) as (((k0, t0), r0), y0); injection NX as _ _ _ <- _; exact O|].
    destruct (main_rule _ _ _ m c s) as [ma|] eqn:MR; [|discriminate NX]. injection NX as <- _ _ <- _.
    pose proof (main_preproc _ _ _ _ _ _ _ SM MR) as MP. assert (OO : onpreprocline (m_main ma) = false) by (destruct (onpreprocline (m_main ma)); [destruct (MP eq_refl) as [Q|Q]; [congruence|contradiction]|reflexivity]).
    destruct (is_operator c); exact OO. }
  injection H as <- <-. assert (LR : (length r <= n)%nat) by (rewrite S1, app_length in L; destruct t; [contradiction|cbn in L; lia]).
  destruct a as [|t0 a].
  - injection E as <- <-. cbn [k_text k_type]. exists n, m, x, p, m2, y, q, r. rewrite <- S1. split; [exact LR|]. split; [exact A|]. split; [exact O|]. split; [exact NX|]. split; [reflexivity|]. eexists. exact R.
  - injection E as <- E. inversion F as [|? ? F1 F2]; subst. cbn [k_type] in F1. destruct (IH _ _ _ _ _ _ _ _ _ _ LR A3 SM (O3 F1) F2 R eq_refl) as (n2 & m1 & x1 & p1 & m4 & x2 & p2 & r2 & I1 & I2 & I3 & I4 & I5 & I6).
    exists n2, m1, x1, p1, m4, x2, p2, r2. split; [exact I1|]. split; [exact I2|]. split; [exact I3|]. split; [exact I4|]. split; [|exact I6]. rewrite S1, I5. unfold text_of. cbn [map concat k_text]. rewrite <- app_assoc. reflexivity.
Qed.

(** ** A raw string *)
Lemma last_app2 : forall (A : Type) (a b : list A) x y, a ++ [x] = b ++ [y] -> x = y.
Proof. intros A a b x y E. apply app_inj_tail in E. apply E. Qed.
Lemma first_split : forall (a b c d : bytes) x, ~ In x a -> ~ In x b -> a ++ x :: c = b ++ x :: d -> a = b /\ c = d.
Proof.
  induction a as [|y a IH]; intros [|z b] c d x A B E; cbn [app] in E.
  - injection E as E. auto.
  - injection E as E1 E2. subst z. exfalso. apply B. left. reflexivity.
  - injection E as E1 E2. subst y. exfalso. apply A. left. reflexivity.
  - injection E as -> E. apply IH in E as (-> & ->); [auto|intros Q; apply A; right; exact Q|intros Q; apply B; right; exact Q].
Qed.
Lemma raw_string : forall w s l e a k b pre d, simple_macros (s_macros w) -> tokens w s = (l, e) -> l = a ++ k :: b -> Forall (fun t => k_type t <> PREPROC) a ->
  k_type k = STRING_START -> k_text k = pre ++ [82; 34] ++ d ++ [40] -> ~ In 34 pre -> Forall (fun c => c <= 127) d ->
  exists c b2 rest, b = c ++ b2 /\ s = text_of a ++ k_text k ++ text_of c ++ rest /\
    ((exists c0 z, c = c0 ++ [z] /\ Forall inner c0 /\ finishes z /\ exists v q, text_of c = v ++ ([41] ++ d ++ [34]) ++ q /\ Forall (fun x => x = 34) q /\ ~ occurs ([41] ++ d ++ [34]) (v ++ [41] ++ d)) \/
     b2 = [] /\ rest = [] /\ Forall (fun t => inner t \/ finishes t) c /\ ~ occurs ([41] ++ d ++ [34]) (text_of c)).
Proof.
  intros w s l e a k b pre d SM H E NP KT KX NPRE D. destruct (scan_at_pre (length s) w new_main None (Place 1 1) s _ _ _ _ _ (Nat.le_refl _) eq_refl SM eq_refl NP H E) as (n2 & m1 & x1 & p1 & m2 & x2 & p2 & r & LR & A1 & O1 & NX & S & m3 & R).
  assert (X : x2 = Some (Textual RAW_STRING_END false false d) /\ plain_delimiter d).
  { unfold next in NX. destruct (k_text k ++ r) as [|c u] eqn:T; [discriminate NX|]. destruct x1 as [x1|].
    - destruct (text_rule _ _ _ _ _ _) as (((k0, t0), r0), y0) eqn:TR. injection NX as N1 N2 N3 N4 N5. apply rule_app in TR as (v & _ & _ & _ & K & _); [|apply Nat.le_refl].
      exfalso. rewrite KT in N1. destruct K as [->|[(-> & _)|(e0 & ->)]]; discriminate N1.
    - destruct (main_rule _ _ _ m1 c u) as [ma|] eqn:MR; [|discriminate NX]. injection NX as N1 N2 N3 N4 N5. apply main_cut in MR as (C & _); [|exact A1].
      rewrite KX in N2. rewrite KT in N1. assert (I34 : In 34 (m_text ma)) by (rewrite N2; apply in_or_app; right; right; left; reflexivity).
      assert (T40 : exists v, m_text ma = v ++ [40]) by (rewrite N2; exists (pre ++ [82; 34] ++ d); rewrite <- !app_assoc; reflexivity). destruct T40 as (v40 & T40).
      destruct C as [k1 t r1 m4 T1 F P|c1 r1 m4 P|t r1 m4 T1|c1 r1 m4 P|t k1 e1 r1 m4 T1|t k1 e1 r1 m4 T1 P|pre1 k1 r1 m4 ne F P NE|q d1 o r1 m4 LC F DC OC|pre1 k1 r1 m4 F P]; cbn [m_text m_type m_push] in *.
      + exfalso. apply (code_34 _ F I34).
      + exfalso. destruct I34 as [Q|[]]. subst c1. destruct P as (P & _). discriminate P.
      + exfalso. destruct T1 as [(-> & _)| ->]; cbn in I34; repeat (destruct I34 as [I34|I34]; [discriminate I34|]); destruct I34.
      + exfalso. destruct P as [-> | ->]; cbn in I34; repeat (destruct I34 as [I34|I34]; [discriminate I34|]); destruct I34.
      + exfalso. destruct T1 as [(-> & _)|([-> | ->] & _)]; cbn in I34; repeat (destruct I34 as [I34|I34]; [discriminate I34|]); destruct I34.
      + exfalso. destruct T1 as [->|([-> | ->] & _)]; cbn in I34; repeat (destruct I34 as [I34|I34]; [discriminate I34|]); destruct I34.
      + exfalso. apply last_app2 in T40. discriminate T40.
      + assert (Q : q ++ [82] = pre ++ [82] /\ d1 ++ o = d ++ [40]).
        { apply (first_split _ _ _ _ 34).
          - apply code_34. exact F.
          - intros Q. apply in_app_or in Q as [Q|Q]; [contradiction|]. destruct Q as [Q|[]]. discriminate Q.
          - rewrite <- !app_assoc in *. exact N2. }
        destruct Q as (_ & Q). assert (DD : d1 = d).
        { destruct OC as [->| ->]; [|apply app_inj_tail in Q as (Q & _); exact Q]. rewrite app_nil_r in Q. subst d1. exfalso. apply Forall_app in DC as (_ & DC). inversion DC as [|? ? Q _]; subst. discriminate Q. }
        subst d1. rewrite O1 in N5. split; [symmetry; exact N5|]. unfold plain_delimiter. rewrite Forall_forall in *. intros z Z. split; [exact (DC z Z)|exact (D z Z)].
      + exfalso. apply last_app2 in T40. discriminate T40. }
  destruct X as (-> & PD). apply (scan_in_raw _ d _ _ _ _ _ _ _ LR PD eq_refl) in R as (c & d2 & rest & -> & RT & R).
  exists c, d2, rest. split; [reflexivity|]. split; [rewrite S, RT; reflexivity|]. destruct R as [(c0 & z & -> & F & Z & v & q & V1 & V2 & V3)|(-> & -> & F & O)]; [left|right].
  - exists c0, z. split; [reflexivity|]. split; [exact F|]. split; [eexists; exact Z|]. exists v, q. split; [exact V1|]. split; [exact V2|]. apply unclosed_occurs. intros u1 u2 b0 EV NE Q.
    apply (V3 u1 u2 (b0 ++ q ++ rest) EV NE). rewrite app_assoc, Q, <- app_assoc. reflexivity.
  - split; [reflexivity|]. split; [reflexivity|]. split; [exact F|]. apply unclosed_end. exact O.
Qed.
