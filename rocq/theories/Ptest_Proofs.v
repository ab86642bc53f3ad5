(** The parser test: what is shown of a failure (C64). *)
From Verif Require Import Base Text_Model Ptest_Model Ptest_Spec.
Local Open Scope N_scope.

Lemma agree_split : forall a b, exists c a2 b2, a = c ++ a2 /\ b = c ++ b2 /\ length c = agree a b /\ forall x y u v, a2 = x :: u -> b2 = y :: v -> x <> y.
Proof.
  induction a as [|x a IH]; intros b; [exists [], [], b; repeat split; intros; discriminate|]. destruct b as [|y b]; [exists [], (x :: a), []; repeat split; intros; discriminate|].
  cbn [agree]. destruct (x =? y) eqn:E.
  - apply N.eqb_eq in E. subst y. destruct (IH b) as (c & a2 & b2 & -> & -> & L & D). exists (x :: c), a2, b2. cbn [length]. rewrite L. repeat split. exact D.
  - exists [], (x :: a), (y :: b). repeat split. intros x' y' u v [= <- _] [= <- _]. apply N.eqb_neq. exact E.
Qed.
Lemma back_split : forall s i, (i <= length s)%nat -> nth i s 0 <> 10 ->
  exists p r, firstn i s = p ++ r /\ back s i = length p /\ (p = [] \/ last p 0 = 10) /\ ~ In 10 r.
Proof.
  intros s. induction i as [|i IH]; intros L N.
  - exists [], []. cbn [back]. replace (nth 0 s 0 =? 10) with false by (symmetry; apply N.eqb_neq; exact N). repeat split; auto.
  - cbn [back]. replace (nth (S i) s 0 =? 10) with false by (symmetry; apply N.eqb_neq; exact N).
    assert (F : firstn (S i) s = firstn i s ++ [nth i s 0]).
    { clear IH N. revert s L. induction i as [|i IH]; intros [|x s] L; cbn [length] in L; try lia; [reflexivity|]. cbn [firstn app nth]. f_equal. apply (IH s). lia. }
    destruct (nth i s 0 =? 10) eqn:E.
    + exists (firstn (S i) s), []. rewrite app_nil_r. split; [reflexivity|]. split; [|split; [right; rewrite F, last_last; apply N.eqb_eq; exact E|intros []]].
      rewrite firstn_length_le by exact L. destruct i; cbn [back]; rewrite E; reflexivity.
    + apply N.eqb_neq in E. destruct (IH ltac:(lia) E) as (p & r & P1 & P2 & P3 & P4). exists p, (r ++ [nth i s 0]). rewrite F, P1, <- app_assoc. split; [reflexivity|]. split; [exact P2|]. split; [exact P3|].
      intros K. apply in_app_or in K. destruct K as [K|[K|[]]]; [exact (P4 K)|exact (E K)].
Qed.
Lemma agree_back_split : forall a b n, agree_back a b = Ok n -> exists c a2 b2, a = c ++ a2 /\ b = c ++ b2 /\ length c = n /\ forall x y u v, a2 = x :: u -> b2 = y :: v -> x <> y.
Proof.
  induction a as [|x a IH]; intros b n H; [injection H as <-; exists [], [], b; repeat split; intros; discriminate|]. destruct b as [|y b]; [discriminate H|].
  cbn [agree_back] in H. destruct (x =? y) eqn:E.
  - apply N.eqb_eq in E. subst y. destruct (agree_back a b) as [k|] eqn:G; [|discriminate H]. injection H as <-. destruct (IH b k G) as (c & a2 & b2 & -> & -> & L & D).
    exists (x :: c), a2, b2. cbn [length]. rewrite L. repeat split. exact D.
  - injection H as <-. exists [], (x :: a), (y :: b). repeat split. intros x' y' u v [= <- _] [= <- _]. apply N.eqb_neq. exact E.
Qed.
Lemma long_b : forall a b, Nat.ltb 5 (newlines a) || Nat.ltb 5 (newlines b) = true <-> long a b.
Proof. intros a b. unfold long. rewrite orb_true_iff, !Nat.ltb_lt. reflexivity. Qed.
Lemma long_f : forall a b, Nat.ltb 5 (newlines a) || Nat.ltb 5 (newlines b) = false -> ~ long a b.
Proof. intros a b E H. apply long_b in H. congruence. Qed.
Lemma shown_cut : forall a b s t, shown a b = Ok (s, t) -> a <> b -> in_line a b -> cut a b s t.
Proof.
  intros a b s t H D I. unfold shown in H. destruct (Nat.ltb 5 (newlines a) || Nat.ltb 5 (newlines b)) eqn:L; [|injection H as <- <-; apply c_whole; apply long_f; exact L].
  apply long_b in L. destruct (agree_split a b) as (c & a2 & b2 & A & B & C & X). unfold in_line in I.
  assert (LA : (agree a b <= length a)%nat) by (rewrite <- C, A, app_length; lia).
  destruct (back_split a (agree a b) LA I) as (p & r & P1 & P2 & P3 & P4). rewrite P2 in H.
  assert (PC : c = p ++ r) by (rewrite <- P1, <- C, A, firstn_app, Nat.sub_diag, firstn_all, firstn_O, app_nil_r; reflexivity).
  assert (A' : a = p ++ (r ++ a2)) by (rewrite A, PC, <- app_assoc; reflexivity). assert (B' : b = p ++ (r ++ b2)) by (rewrite B, PC, <- app_assoc; reflexivity).
  replace (Nat.ltb (length b) (length p)) with false in H by (symmetry; apply Nat.ltb_ge; rewrite B', app_length; lia).
  replace (skipn (length p) a) with (r ++ a2) in H by (rewrite A', skipn_app, skipn_all, Nat.sub_diag; reflexivity).
  replace (skipn (length p) b) with (r ++ b2) in H by (rewrite B', skipn_app, skipn_all, Nat.sub_diag; reflexivity).
  destruct (agree_back (rev (r ++ a2)) (rev (r ++ b2))) as [n|] eqn:G; [|discriminate H]. cbn [obind] in H.
  destruct (agree_back_split _ _ _ G) as (q & x & y & Q1 & Q2 & Q3 & Q4).
  apply (f_equal (@rev N)) in Q1, Q2. rewrite rev_involutive, rev_app_distr in Q1, Q2.
  assert (N1 : (length (r ++ a2) - n = length (rev x))%nat) by (rewrite Q1, app_length, !rev_length, Q3; lia).
  assert (N2 : (length (r ++ b2) - n = length (rev y))%nat) by (rewrite Q2, app_length, !rev_length, Q3; lia).
  rewrite N1, N2 in H. rewrite Q1, Q2 in H. rewrite !firstn_app, !Nat.sub_diag, !firstn_all, !firstn_O, !app_nil_r in H. injection H as <- <-.
  apply (c_part a b p (rev q)); [exact L|rewrite <- Q1; exact A'|rewrite <- Q2; exact B'|exact P3| | |].
  - intros E. apply D. rewrite A', B', Q1, Q2, E. reflexivity.
  - intros l s' t' E1 E2. rewrite E1 in Q1. rewrite E2 in Q2. rewrite <- app_assoc in Q1, Q2. cbn [app] in Q1, Q2. revert Q1 Q2 P4 X. clear. revert r a2 b2.
    induction l as [|k l IH]; intros r a2 b2 Q1 Q2 P4 X.
    + destruct r as [|z r]; cbn [app] in Q1, Q2; [exact (X _ _ _ _ Q1 Q2 eq_refl)|]. injection Q1 as -> _. apply P4. left. reflexivity.
    + destruct r as [|z r]; cbn [app] in Q1, Q2; [exact (X _ _ _ _ Q1 Q2 eq_refl)|]. injection Q1 as -> Q1. injection Q2 as Q2. apply (IH r a2 b2 Q1 Q2); [intros K; apply P4; right; exact K|exact X].
  - intros k s' t' E1 E2. apply (f_equal (@rev N)) in E1, E2. rewrite rev_involutive, rev_app_distr in E1, E2. exact (Q4 _ _ _ _ E1 E2 eq_refl).
Qed.
(** a text that is left out, and one that is added *)
Lemma agree_here : forall p c d x y, c <> d -> agree (p ++ c :: x) (p ++ d :: y) = length p.
Proof. intros p c d x y N. induction p as [|z p IH]; cbn [app agree length]; [replace (c =? d) with false by (symmetry; apply N.eqb_neq; exact N); reflexivity|]. rewrite N.eqb_refl, IH. reflexivity. Qed.
Lemma back_here : forall p s, p = [] \/ last p 0 = 10 -> nth (length p) (p ++ s) 0 <> 10 -> back (p ++ s) (length p) = length p.
Proof.
  intros p s P N. destruct (back_split (p ++ s) (length p)) as (u & r & U1 & U2 & U3 & U4); [rewrite app_length; lia|exact N|].
  rewrite firstn_app, Nat.sub_diag, firstn_all, firstn_O, app_nil_r in U1. rewrite U2. destruct r as [|z r _] using rev_ind; [rewrite app_nil_r in U1; subst; reflexivity|].
  exfalso. apply U4. apply in_or_app. right. left. destruct P as [P|P]; [subst p; rewrite app_assoc in U1; destruct (u ++ r); discriminate U1|]. rewrite U1, app_assoc, last_last in P. exact P.
Qed.
Lemma agree_back_prefix : forall q x, agree_back q (q ++ x) = Ok (length q).
Proof. intros q x. induction q as [|z q IH]; [reflexivity|]. cbn [app agree_back length]. rewrite N.eqb_refl, IH. reflexivity. Qed.
Lemma agree_back_over : forall q x, x <> [] -> agree_back (q ++ x) q = UB.
Proof. intros q x N. induction q as [|z q IH]; [destruct x; [contradiction|reflexivity]|]. cbn [app agree_back]. rewrite N.eqb_refl, IH. reflexivity. Qed.
Lemma left_out : forall p c x d q, long (p ++ (c :: x) ++ d :: q) (p ++ d :: q) -> p = [] \/ last p 0 = 10 -> c <> d -> c <> 10 -> shown (p ++ (c :: x) ++ d :: q) (p ++ d :: q) = UB.
Proof.
  intros p c x d q L P N C. unfold shown. apply long_b in L. rewrite L. cbn [app]. rewrite agree_here by exact N. rewrite back_here; [|exact P|rewrite app_nth2, Nat.sub_diag by lia; exact C].
  replace (Nat.ltb (length (p ++ d :: q)) (length p)) with false by (symmetry; apply Nat.ltb_ge; rewrite app_length; lia). rewrite !skipn_app, !skipn_all, !Nat.sub_diag. cbn [skipn app].
  replace (rev (c :: x ++ d :: q)) with (rev (d :: q) ++ rev (c :: x)); [|change (c :: x ++ d :: q) with ((c :: x) ++ (d :: q)); rewrite rev_app_distr; reflexivity].
  rewrite agree_back_over; [reflexivity|]. cbn [rev]. destruct (rev x); discriminate.
Qed.
Lemma added : forall color l u f n p c x d q, long (p ++ d :: q) (p ++ (c :: x) ++ d :: q) -> p = [] \/ last p 0 = 10 -> c <> d -> d <> 10 ->
  obind (shown (p ++ d :: q) (p ++ (c :: x) ++ d :: q)) (fun '(a, b) => error_text color l u f n a b) = UB.
Proof.
  intros color l u f n p c x d q L P N C. unfold shown. apply long_b in L. rewrite L. cbn [app]. rewrite agree_here by (intros K; apply N; symmetry; exact K).
  rewrite back_here; [|exact P|rewrite app_nth2, Nat.sub_diag by lia; exact C].
  replace (Nat.ltb (length (p ++ c :: x ++ d :: q)) (length p)) with false by (symmetry; apply Nat.ltb_ge; rewrite app_length; lia). rewrite !skipn_app, !skipn_all, !Nat.sub_diag. cbn [skipn app].
  replace (rev (c :: x ++ d :: q)) with (rev (d :: q) ++ rev (c :: x)); [|change (c :: x ++ d :: q) with ((c :: x) ++ (d :: q)); rewrite rev_app_distr; reflexivity].
  rewrite agree_back_prefix. cbn [obind]. rewrite rev_length, Nat.sub_diag. reflexivity.
Qed.
