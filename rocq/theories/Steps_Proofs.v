(** The steps of a command: proofs. *)
From Verif Require Import Base Steps_Model Steps_Spec.
From Coq Require Import Lia.

(** ** Invariant: [up], [uc]: what is still to come from the left, and whether it will close. Of each process: whether its pipe is or will be
    closed, and whether it is still to read the end of file. *)
Inductive holds {A : Type} (next : A -> action A) (goal : bytes) : bytes -> bool -> list (pipe * A) -> bytes -> list (bool * bool) -> nat -> Prop :=
| HNil up uc out : out ++ up = goal -> holds next goal up uc [] out [] 0
| HCons up uc p s l out o c e n te m : does next s (contents p ++ up) o c e n -> (closed p = true -> up = [] /\ uc = false) ->
    holds next goal o c l out te m -> holds next goal up uc ((p, s) :: l) out ((closed p || uc, e) :: te) (n + m).
Definition keeps (a b : bool * bool) : Prop := fst a = fst b /\ (fst a = false -> snd a = snd b).
Lemma keeps_refl te : Forall2 keeps te te.
Proof. induction te; constructor; [split; auto|auto]. Qed.
Lemma does_read {A} (next : A -> action A) s i o c e n k : does next s i o c e n -> next s = Read k ->
  match i with b :: r => exists m, n = S m /\ does next (k (Some b)) r o c e m | [] => e = true /\ exists e' m, n = S m /\ does next (k None) [] o c e' m end.
Proof. intros D N. inversion D as [s1 N1|s1 k1 b1 r1 o1 c1 e1 n1 N1 D1|s1 k1 o1 c1 e1 n1 N1 D1|s1 s1' b1 i1 o1 c1 e1 n1 N1 D1|s1 s1' i1 e1 n1 N1 D1]; subst; rewrite N in N1; try discriminate N1; injection N1 as <-; eauto. Qed.
Lemma does_write {A} (next : A -> action A) s i o c e n b s' : does next s i o c e n -> next s = Write b s' -> exists o' m, o = b :: o' /\ n = S m /\ does next s' i o' c e m.
Proof. intros D N. inversion D as [s1 N1|s1 k1 b1 r1 o1 c1 e1 n1 N1 D1|s1 k1 o1 c1 e1 n1 N1 D1|s1 s1' b1 i1 o1 c1 e1 n1 N1 D1|s1 s1' i1 e1 n1 N1 D1]; subst; rewrite N in N1; try discriminate N1; injection N1 as <- <-; eauto. Qed.
Lemma does_close {A} (next : A -> action A) s i o c e n s' : does next s i o c e n -> next s = Close s' -> exists m, o = [] /\ c = true /\ n = S m /\ does next s' i [] false e m.
Proof. intros D N. inversion D as [s1 N1|s1 k1 b1 r1 o1 c1 e1 n1 N1 D1|s1 k1 o1 c1 e1 n1 N1 D1|s1 s1' b1 i1 o1 c1 e1 n1 N1 D1|s1 s1' i1 e1 n1 N1 D1]; subst; rewrite N in N1; try discriminate N1; injection N1 as <-; eauto. Qed.
Lemma does_end {A} (next : A -> action A) s i o c e n : does next s i o c e n -> next s = End -> i = [] /\ o = [] /\ c = false /\ e = false /\ n = 0%nat.
Proof. intros D N. inversion D as [s1 N1|s1 k1 b1 r1 o1 c1 e1 n1 N1 D1|s1 k1 o1 c1 e1 n1 N1 D1|s1 s1' b1 i1 o1 c1 e1 n1 N1 D1|s1 s1' i1 e1 n1 N1 D1]; subst; rewrite N in N1; try discriminate N1; auto. Qed.
Lemma holds_step {A : Type} (next : A -> action A) (goal : bytes) K l out l' out' : moves next K l out l' out' -> forall up uc te n, holds next goal up uc l out te n ->
  exists te' n', n = Datatypes.S n' /\ holds next goal up uc l' out' te' n' /\ Forall2 keeps te te'.
Proof.
  induction 1 as [b r c s k l out N|s k l out N|p s b s' q t l out N K'|p s b s' out N|p s s' q t l out N|p s s' out N|x l out l' out' M IH]; intros up uc te n H.
  - inversion H as [|up0 uc0 p s0 l0 out0 o c0 e n0 te0 m D C R]; subst. cbn [contents closed app] in *. destruct (does_read _ _ _ _ _ _ _ _ D N) as (n1 & -> & D1).
    exists ((c || uc, e) :: te0), (n1 + m)%nat. split; [reflexivity|]. split; [|apply keeps_refl]. apply (HCons next goal up uc (Pipe r c) (k (Some b)) l out o c0 e n1 te0 m); assumption.
  - inversion H as [|up0 uc0 p s0 l0 out0 o c0 e n0 te0 m D C R]; subst. cbn [contents closed app] in *. destruct (C eq_refl) as [-> ->]. destruct (does_read _ _ _ _ _ _ _ _ D N) as (_ & e1 & n1 & -> & D1).
    exists ((true, e1) :: te0), (n1 + m)%nat. split; [reflexivity|]. split; [|constructor; [split; [reflexivity|discriminate]|apply keeps_refl]].
    apply (HCons next goal [] false (Pipe [] true) (k None) l out o c0 e1 n1 te0 m); assumption.
  - inversion H as [|up0 uc0 p0 s0 l0 out0 o c0 e n0 te0 m D C R]; subst. destruct (does_write _ _ _ _ _ _ _ _ _ D N) as (o1 & n1 & -> & -> & D1).
    inversion R as [|up0 uc0 p1 s1 l1 out1 o2 c2 e2 n2 te2 m2 D2 C2 R2]; subst. destruct (closed q) eqn:Q; [destruct (C2 eq_refl); discriminate|].
    exists ((closed p || uc, e) :: (false || c0, e2) :: te2), (n1 + (n2 + m2))%nat. split; [reflexivity|]. split; [|apply keeps_refl].
    apply (HCons next goal up uc p s' _ out o1 c0 e n1 _ (n2 + m2)); [assumption|assumption|].
    apply (HCons next goal o1 c0 (Pipe (contents q ++ [b]) false) t l out o2 c2 e2 n2 te2 m2); cbn [contents closed]; [|discriminate|assumption]. rewrite <- app_assoc. assumption.
  - inversion H as [|up0 uc0 p0 s0 l0 out0 o c0 e n0 te0 m D C R]; subst. destruct (does_write _ _ _ _ _ _ _ _ _ D N) as (o1 & n1 & -> & -> & D1).
    assert (E : te0 = [] /\ m = 0%nat /\ out ++ b :: o1 = goal) by (inversion R; auto). destruct E as (-> & -> & E).
    exists [(closed p || uc, e)], (n1 + 0)%nat. split; [reflexivity|]. split; [|apply keeps_refl].
    apply (HCons next _ up uc p s' [] (out ++ [b]) o1 c0 e n1 [] 0); [assumption|assumption|]. constructor. now rewrite <- app_assoc.
  - inversion H as [|up0 uc0 p0 s0 l0 out0 o c0 e n0 te0 m D C R]; subst. destruct (does_close _ _ _ _ _ _ _ _ D N) as (n1 & -> & -> & -> & D1).
    inversion R as [|up0 uc0 p1 s1 l1 out1 o2 c2 e2 n2 te2 m2 D2 C2 R2]; subst.
    exists ((closed p || uc, e) :: (true, e2) :: te2), (n1 + (n2 + m2))%nat. split; [reflexivity|]. split; [|constructor; [split; auto|constructor; [|apply keeps_refl]]].
    + apply (HCons next goal up uc p s' _ out [] false e n1 _ (n2 + m2)); [assumption|assumption|].
      apply (HCons next goal [] false (Pipe (contents q) true) t l out o2 c2 e2 n2 te2 m2); cbn [contents closed]; auto.
    + rewrite orb_true_r. split; [reflexivity|discriminate].
  - inversion H as [|up0 uc0 p0 s0 l0 out0 o c0 e n0 te0 m D C R]; subst. destruct (does_close _ _ _ _ _ _ _ _ D N) as (n1 & -> & -> & -> & D1).
    assert (E : te0 = [] /\ m = 0%nat /\ out ++ [] = goal) by (inversion R; auto). destruct E as (-> & -> & E).
    exists [(closed p || uc, e)], (n1 + 0)%nat. split; [reflexivity|]. split; [|apply keeps_refl].
    apply (HCons next _ up uc p s' [] out [] false e n1 [] 0); [assumption|assumption|]. now constructor.
  - inversion H as [|up0 uc0 p0 s0 l0 out0 o c0 e n0 te0 m D C R]; subst. destruct (IH _ _ _ _ R) as (te' & n' & -> & R' & F).
    exists ((closed p0 || uc, e) :: te'), (n0 + n')%nat. split; [lia|]. split; [|constructor; [split; auto|exact F]]. econstructor; eassumption.
Qed.
Lemma keeps_trans a b c : Forall2 keeps a b -> Forall2 keeps b c -> Forall2 keeps a c.
Proof.
  intros F. revert c. induction F as [|x y a b [K1 K2] F IH]; intros c G; inversion G as [|y' z b' c' [L1 L2] G']; subst; constructor; [|auto].
  split; [congruence|]. intros X. rewrite K2 by assumption. apply L2. congruence.
Qed.
Lemma holds_run {A : Type} (next : A -> action A) (goal : bytes) K l out n l' out' : run next K l out n l' out' -> forall up uc te m, holds next goal up uc l out te m ->
  exists te' m', m = (n + m')%nat /\ holds next goal up uc l' out' te' m' /\ Forall2 keeps te te'.
Proof.
  induction 1 as [l out|l out l' out' n l'' out'' M R IH]; intros up uc te m H.
  - exists te, m. split; [reflexivity|]. split; [exact H|apply keeps_refl].
  - destruct (holds_step _ _ _ _ _ _ _ M _ _ _ _ H) as (te1 & m1 & -> & H1 & F1). destruct (IH _ _ _ _ H1) as (te2 & m2 & -> & H2 & F2).
    exists te2, m2. split; [reflexivity|]. split; [exact H2|]. eapply keeps_trans; eassumption.
Qed.
(** ** Progress *)
Lemma moves_right {A : Type} (next : A -> action A) goal K : (0 < K)%nat -> forall l up uc out te n p s, holds next goal up uc ((p, s) :: l) out te n -> contents p <> [] ->
  exists l' out', moves next K ((p, s) :: l) out l' out'.
Proof.
  intros K0. induction l as [|[q t] l IH]; intros up uc out te n p s H C; inversion H as [|up0 uc0 p0 s0 l0 out0 o c0 e n0 te0 m D CL R]; subst;
    destruct p as [[|b r] c]; try (exfalso; now apply C); cbn [contents app] in D; destruct (next s) as [k|b1 s'|s'|] eqn:N.
  - eexists _, _. eapply MRead; eassumption.
  - eexists _, _. eapply MLast; eassumption.
  - eexists _, _. eapply MCloseLast; eassumption.
  - destruct (does_end _ _ _ _ _ _ _ D N). discriminate.
  - eexists _, _. eapply MRead; eassumption.
  - destruct (Nat.lt_ge_cases (length (contents q)) K) as [LT|GE].
    + eexists _, _. eapply MWrite; eassumption.
    + destruct (IH _ _ _ _ _ _ _ R) as (l' & out' & M); [intros E; rewrite E in GE; cbn in GE; lia|]. eexists _, _. apply MOther. exact M.
  - eexists _, _. eapply MClose; eassumption.
  - destruct (does_end _ _ _ _ _ _ _ D N). discriminate.
Qed.
Lemma moves_or_ended {A : Type} (next : A -> action A) goal K : (0 < K)%nat -> forall l out te n, holds next goal [] false l out te n -> Forall (fun a => fst a = true) te ->
  (exists l' out', moves next K l out l' out') \/ (ended next l /\ out = goal).
Proof.
  intros K0. induction l as [|[p s] l IH]; intros out te n H T.
  - right. inversion H; subst. split; [intros ? ? []|now rewrite app_nil_r].
  - inversion H as [|up0 uc0 p0 s0 l0 out0 o c e n0 te0 m D CL R]; subst. assert (T' := Forall_inv_tail T). apply Forall_inv in T. cbn in T. rewrite orb_false_r in T.
    destruct p as [ct cl]. cbn in T. subst cl. cbn [contents] in D. rewrite app_nil_r in D.
    inversion D as [s1 N1|s1 k b1 r1 o1 c1 e1 n1 N1 D1|s1 k o1 c1 e1 n1 N1 D1|s1 s' b1 i1 o1 c1 e1 n1 N1 D1|s1 s' i1 e1 n1 N1 D1]; subst.
    + destruct (IH _ _ _ R T') as [(l' & out' & M)|[E ->]]; [left; eexists _, _; apply MOther; exact M|]. right. split; [|reflexivity].
      intros p' s' [X|X]; [injection X as <- <-; exact N1|now apply E in X].
    + left. eexists _, _. eapply MRead; eassumption.
    + left. eexists _, _. eapply MEnd; eassumption.
    + left. destruct l as [|[q t] l]; [eexists _, _; eapply MLast; eassumption|].
      destruct (Nat.lt_ge_cases (length (contents q)) K) as [LT|GE]; [eexists _, _; eapply MWrite; eassumption|].
      destruct (moves_right next goal K K0 _ _ _ _ _ _ _ _ R) as (l' & out' & M); [intros E; rewrite E in GE; cbn in GE; lia|]. eexists _, _. apply MOther. exact M.
    + left. destruct l as [|[q t] l]; [eexists _, _; eapply MCloseLast; eassumption|eexists _, _; eapply MClose; eassumption].
Qed.
Lemma ended_flags {A : Type} (next : A -> action A) goal l : forall up uc out te n, holds next goal up uc l out te n -> ended next l -> Forall (fun a => snd a = false) te.
Proof.
  induction l as [|[p s] l IH]; intros up uc out te n H E; inversion H as [|up0 uc0 p0 s0 l0 out0 o c e n0 te0 m D CL R]; subst; constructor.
  - assert (N := E p s (or_introl eq_refl)). now destruct (does_end _ _ _ _ _ _ _ D N) as (_ & _ & _ & -> & _).
  - eapply IH; [exact R|]. intros p' s' X. apply (E p'). now right.
Qed.
(** ** From the start *)
Lemma holds_later {A : Type} (next : A -> action A) l : forall i o cs uc, composed next l i o cs -> (l = [] \/ length cs = length l) ->
  exists n, holds next o i uc (map (fun s => (Pipe [] false, s)) l) [] (match l with [] => [] | _ => (uc, true) :: map (fun c => (c, true)) (removelast cs) end) n.
Proof.
  induction l as [|s l IH]; intros i o cs uc H L.
  - inversion H; subst. exists 0%nat. now constructor.
  - inversion H as [|s0 l0 i0 o1 o2 c n cs0 D C]; subst. assert (LC : length cs0 = length l) by (destruct L as [L|L]; [discriminate|cbn in L; lia]).
    destruct (IH o1 o cs0 c C (or_intror LC)) as (m & Hm). exists (n + m)%nat. cbn [map].
    assert (X := HCons next o i uc (Pipe [] false) s (map (fun s => (Pipe [] false, s)) l) [] o1 c true n _ m D ltac:(discriminate) Hm). cbn [closed orb] in X.
    destruct l as [|s' l]; destruct cs0 as [|c0 cs0]; try discriminate LC; exact X.
Qed.
Lemma composed_length {A : Type} (next : A -> action A) l i o cs : composed next l i o cs -> length cs = length l.
Proof. induction 1; cbn; congruence. Qed.
Lemma holds_begin {A : Type} (next : A -> action A) s l i o cs : composed next (s :: l) i o cs ->
  exists n, holds next o [] false (begins i (s :: l)) [] ((true, true) :: map (fun c => (c, true)) (removelast cs)) n.
Proof.
  intros H. inversion H as [|s0 l0 i0 o1 o2 c n cs0 D C]; subst. assert (LC := composed_length _ _ _ _ _ C). 
  destruct (holds_later next l o1 o cs0 c C (or_intror LC)) as (m & Hm). exists (n + m)%nat.
  cbn [begins]. rewrite <- (app_nil_r i) in D. assert (X := HCons next o [] false (Pipe i true) s _ [] o1 c true n _ m D ltac:(auto) Hm). cbn [closed orb] in X.
  destruct l as [|s' l]; destruct cs0 as [|c0 cs0]; try discriminate LC; exact X.
Qed.
Lemma keeps_fst a b : Forall2 keeps a b -> Forall (fun x => fst x = true) a -> Forall (fun x => fst x = true) b.
Proof. induction 1 as [|x y a b [K _] F IH]; intros T; constructor; [rewrite <- K; now apply Forall_inv in T|apply IH; now apply Forall_inv_tail in T]. Qed.
Theorem finishes {A : Type} (next : A -> action A) K s l i o cs : (0 < K)%nat -> composed next (s :: l) i o cs -> Forall (eq true) (removelast cs) ->
  exists N, forall n l' out', run next K (begins i (s :: l)) [] n l' out' -> (n <= N)%nat /\ (stuck next K l' out' -> ended next l' /\ out' = o).
Proof.
  intros K0 C T. destruct (holds_begin _ _ _ _ _ _ C) as (N & H). exists N. intros n l' out' R.
  destruct (holds_run _ _ _ _ _ _ _ _ R _ _ _ _ H) as (te & m & -> & H' & F). split; [lia|]. intros ST.
  assert (T' : Forall (fun x => fst x = true) te).
  { eapply keeps_fst; [exact F|]. constructor; [reflexivity|]. clear -T. induction T; constructor; auto. }
  destruct (moves_or_ended next o K K0 _ _ _ _ H' T') as [(l2 & out2 & M)|E]; [now apply ST in M|exact E].
Qed.
Theorem hangs {A : Type} (next : A -> action A) K s l i o cs : composed next (s :: l) i o cs -> In false (removelast cs) ->
  exists N, forall n l' out', run next K (begins i (s :: l)) [] n l' out' -> (n <= N)%nat /\ ~ ended next l'.
Proof.
  intros C T. destruct (holds_begin _ _ _ _ _ _ C) as (N & H). exists N. intros n l' out' R.
  destruct (holds_run _ _ _ _ _ _ _ _ R _ _ _ _ H) as (te & m & -> & H' & F). split; [lia|]. intros E.
  apply (ended_flags _ _ _ _ _ _ _ _ H') in E. inversion F as [|x y a b K1 F']; subst. apply Forall_inv_tail in E. clear -T F' E.
  revert T. remember (map (fun c : bool => (c, true)) (removelast cs)) as a eqn:A. revert A. generalize (removelast cs). intros q A T. revert q A T.
  induction F' as [|x y a b [K1 K2] F IH]; intros [|c q] A T; try discriminate A; [destruct T|]. cbn in A. injection A as -> ->.
  destruct T as [->|T]; [|eapply IH; [now apply Forall_inv_tail in E|reflexivity|exact T]].
  cbn in K2. apply Forall_inv in E. rewrite <- K2 in E by reflexivity. discriminate E.
Qed.
(** ** The steps chosen *)
Lemma something r : steps r <> [].
Proof.
  unfold steps, extracts. destruct (creates r) eqn:C, (displays r) eqn:D; try discriminate. unfold creates in C. apply orb_false_iff in C as [C _]. apply orb_false_iff in C as [_ C].
  apply orb_false_iff in C as [-> _]. rewrite orb_true_r. discriminate.
Qed.
Lemma steps_finish {A : Type} (next : A -> action A) K r l i o : (0 < K)%nat -> composed next l i o (map closes (steps r)) -> length (filter (fun w => negb (closes w)) (steps r)) <= 1 ->
  exists N, forall n l' out', run next K (begins i l) [] n l' out' -> (n <= N)%nat /\ (stuck next K l' out' -> ended next l' /\ out' = o).
Proof.
  intros K0 C L. destruct l as [|s l]; [inversion C as [E|]; assert (X := something r); destruct (steps r); [congruence|discriminate]|].
  apply (finishes next K s l i o _ K0 C). revert L. unfold steps. destruct (creates r), (displays r), (extracts r), (compresses r); cbn; intros; try lia; repeat constructor.
Qed.
Lemma steps_hang {A : Type} (next : A -> action A) K r l i o : composed next l i o (map closes (steps r)) -> 1 < length (filter (fun w => negb (closes w)) (steps r)) ->
  exists N, forall n l' out', run next K (begins i l) [] n l' out' -> (n <= N)%nat /\ ~ ended next l'.
Proof.
  intros C L. destruct l as [|s l]; [inversion C as [E|]; assert (X := something r); destruct (steps r); [congruence|discriminate]|].
  apply (hangs next K s l i o _ C). revert L. unfold steps. destruct (creates r), (displays r), (extracts r), (compresses r); cbn; intros; try lia; auto.
Qed.
(** ** Which steps *)
Lemma steps_in : forall r w, In w (steps r) <-> match w with Create => creates r | Display => displays r | Extract => extracts r | Compress => compresses r end = true.
Proof.
  intros r w. unfold steps. rewrite !in_app_iff.
  destruct (creates r), (displays r), (extracts r), (compresses r), w; cbn; intuition congruence.
Qed.
Lemma display_when : forall r, In Display (steps r) <-> r_insrcml r = true \/ r_query r = true \/ r_pretty r = true.
Proof. intros r. rewrite steps_in. unfold displays. rewrite !Bool.orb_true_iff. tauto. Qed.
Lemma compress_when : forall r, In Compress (steps r) <-> (1 <= r_compressions r)%nat.
Proof. intros r. rewrite steps_in. unfold compresses. apply Nat.leb_le. Qed.
Lemma create_when : forall r, In Create (steps r) <->
  r_test r = true \/ r_cat r = true \/ r_xml r = true \/ (1 <= r_transformations r)%nat \/ r_out r = SRCML \/ In SRC (sources r).
Proof.
  intros r. rewrite steps_in. unfold creates, transforms. rewrite !Bool.orb_true_iff, existsb_exists, Bool.negb_true_iff, Nat.eqb_neq.
  assert (A : is_SRCML (r_out r) = true <-> r_out r = SRCML) by (destruct (r_out r); cbn; intuition congruence).
  assert (B : (exists x, In x (sources r) /\ is_SRC x = true) <-> In SRC (sources r)).
  { split; [intros ([] & I & E); try discriminate E; exact I|intros I; exists SRC; split; [exact I|reflexivity]]. }
  rewrite A, B. assert (C : r_transformations r <> 0%nat <-> (1 <= r_transformations r)%nat) by lia. rewrite C. tauto.
Qed.
Lemma extract_when : forall r, In Extract (steps r) <-> r_src r = true \/ (r_out r <> SRCML /\ ~ In Create (steps r) /\ ~ In Display (steps r)).
Proof.
  intros r. rewrite !steps_in. unfold extracts. rewrite Bool.orb_true_iff, !Bool.andb_true_iff, !Bool.negb_true_iff, !Bool.not_true_iff_false.
  assert (A : is_SRCML (r_out r) = false <-> r_out r <> SRCML) by (destruct (r_out r); cbn; intuition congruence). rewrite A. tauto.
Qed.
Lemma set_nth_nth : forall {A} (l : list A) i j x, (i < length l)%nat -> nth_error (set_nth i x l) j = if Nat.eqb j i then Some x else nth_error l j.
Proof.
  induction l as [|y l IH]; intros i j x H; [cbn in H; lia|]. destruct i as [|i], j as [|j]; try reflexivity. cbn [set_nth nth_error Nat.eqb]. apply IH. cbn in H. lia.
Qed.
Lemma stdin_kind : forall r i j, r_stdin r = Some i -> (i < length (r_inputs r))%nat ->
  nth_error (sources r) j = if Nat.eqb j i then Some (if r_language r then SRC else SRCML) else nth_error (r_inputs r) j.
Proof. intros r i j E H. unfold sources. rewrite E. apply set_nth_nth. exact H. Qed.
