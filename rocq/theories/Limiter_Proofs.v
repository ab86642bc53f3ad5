(** Proofs for C26. *)
From Verif Require Import Base Limiter_Model Limiter_Spec.

Definition sumz (f : thread -> Z) (l : list thread) : Z := fold_right (fun t n => f t + n)%Z 0%Z l.
Lemma sumz_app f a b : sumz f (a ++ b) = (sumz f a + sumz f b)%Z.
Proof. induction a as [|x a IH]; cbn [sumz fold_right app]; [reflexivity|]. unfold sumz in *. cbn. rewrite IH. lia. Qed.
Lemma sumz_cons f x b : sumz f (x :: b) = (f x + sumz f b)%Z. Proof. reflexivity. Qed.
Lemma middle {A} (l : list A) i x : nth_error l i = Some x -> l = firstn i l ++ x :: skipn (S i) l.
Proof.
  revert i. induction l as [|y l IH]; intros [|i] H; cbn in *; try discriminate.
  - injection H as ->. reflexivity.
  - f_equal. apply IH, H.
Qed.
Lemma sumz_put f i t x l : nth_error l i = Some x -> sumz f (put i t l) = (sumz f l + f t - f x)%Z.
Proof.
  intros N. unfold put. rewrite sumz_app, sumz_cons.
  assert (sumz f l = sumz f (firstn i l ++ x :: skipn (S i) l)) as E by (f_equal; apply middle, N).
  rewrite E, sumz_app, sumz_cons. lia.
Qed.
Lemma forall_put (P : thread -> Prop) i t x l : nth_error l i = Some x -> Forall P l -> P t -> Forall P (put i t l).
Proof.
  intros N F H. rewrite (middle _ _ _ N) in F. unfold put. apply Forall_app in F. destruct F as [F1 F2].
  apply Forall_app. split; [exact F1|]. constructor; [exact H|]. inversion F2. assumption.
Qed.
Lemma in_put i t x l y : nth_error l i = Some x -> In y l -> y = x \/ In y (put i t l).
Proof.
  intros N I. rewrite (middle _ _ _ N) in I. unfold put. apply in_app_or in I. destruct I as [I|[I|I]]; auto.
  - right. apply in_or_app. auto.
  - right. apply in_or_app. right. right. exact I.
Qed.
Lemma in_put_new i t x l : nth_error l i = Some x -> In t (put i t l).
Proof. intros _. unfold put. apply in_or_app. right. left. reflexivity. Qed.
Lemma in_put_inv i t l y : In y (put i t l) -> y = t \/ In y l.
Proof.
  unfold put. intros I. apply in_app_or in I. destruct I as [I|[I|I]]; auto; right.
  - rewrite <- (firstn_skipn i l). apply in_or_app. auto.
  - rewrite <- (firstn_skipn (S i) l). apply in_or_app. auto.
Qed.

(** * Invariants *)
Definition bal (t : thread) : Z := balance (todo t).
Definition at_open (t : thread) : Z := match t with Thread (Open :: _) false => 1 | _ => 0 end.
Definition napping (t : thread) : Z := if asleep t then 1 else 0.

Record LInv (total : Z) (s : lim) : Prop := MkLInv
  { l_max : (open_files s <= MAX_OPEN_FILES + 1)%Z;
    l_bal : (open_files s + sumz bal (ths s) = total)%Z;
    l_wake : waiting s -> (MAX_OPEN_FILES + 1 - open_files s <= sumz at_open (ths s))%Z;
    l_at : Forall (fun t => asleep t = true -> exists r, todo t = Open :: r) (ths s) }.

Lemma any_asleep_spec l : any_asleep l = true <-> exists t, In t l /\ asleep t = true.
Proof. unfold any_asleep. rewrite existsb_exists. reflexivity. Qed.
Lemma at_open_pos t : (0 <= at_open t <= 1)%Z.
Proof. unfold at_open. destruct t as [[|[] r] []]; lia. Qed.
Lemma sum_at_open l : (0 <= sumz at_open l)%Z.
Proof. induction l as [|t l IH]; [cbn; lia|]. rewrite sumz_cons. pose proof (at_open_pos t). lia. Qed.

Lemma no_sleeper s : ~ waiting s -> forall t, In t (ths s) -> asleep t = false.
Proof. intros N t I. destruct (asleep t) eqn:A; [|reflexivity]. destruct N. exists t. auto. Qed.

(** Bookkeeping of a replaced thread. *)
Lemma put_inv total s i t x n g :
  LInv total s -> nth_error (ths s) i = Some x -> (n <= MAX_OPEN_FILES + 1)%Z ->
  (n - open_files s = bal x - bal t)%Z -> (asleep t = true -> exists r, todo t = Open :: r) ->
  ((waiting s \/ asleep t = true) -> (MAX_OPEN_FILES + 1 - n <= sumz at_open (ths s) + at_open t - at_open x)%Z) ->
  LInv total (Lim n g (put i t (ths s))).
Proof.
  intros [I1 I2 I3 I4] N M B A W. constructor; cbn [open_files ths].
  - exact M.
  - rewrite (sumz_put _ _ _ _ _ N). lia.
  - intros [y [Y1 Y2]]. rewrite (sumz_put _ _ _ _ _ N). apply W. cbn [ths] in Y1.
    apply in_put_inv in Y1. destruct Y1 as [->|Y1]; [right; exact Y2|left; exists y; auto].
  - apply (forall_put _ _ _ _ _ N I4 A).
Qed.

Lemma bal_cons o r b : bal (Thread (o :: r) b) = (bal (Thread r b) + match o with Open => 1 | Close => -1 | _ => 0 end)%Z.
Proof. unfold bal. cbn [todo balance fold_right]. change (fold_right _ 0%Z r) with (balance r). destruct o; lia. Qed.
Lemma bal_asleep p a b : bal (Thread p a) = bal (Thread p b). Proof. reflexivity. Qed.
Lemma at_open_awake o r : at_open (Thread (o :: r) false) = match o with Open => 1%Z | _ => 0%Z end.
Proof. destruct o; reflexivity. Qed.
Lemma at_open_asleep p : at_open (Thread p true) = 0%Z.
Proof. destruct p as [|[]]; reflexivity. Qed.

Lemma lstep_inv total m s s' : LInv total s -> lstep m s = Some s' -> LInv total s'.
Proof.
  intros I E. pose proof I as [I1 I2 I3 I4]. destruct m as [i j|i]; cbn [lstep] in E.
  - unfold act in E. destruct (nth_error (ths s) i) as [[todo0 as0]|] eqn:N; [|discriminate E].
    destruct todo0 as [|o r]; [discriminate E|]. destruct as0; [destruct o; discriminate E|].
    assert (R : forall n g, (n <= MAX_OPEN_FILES + 1)%Z -> (n - open_files s = match o with Open => 1 | Close => -1 | _ => 0 end)%Z ->
       (waiting s -> (MAX_OPEN_FILES + 1 - n <= sumz at_open (ths s) - match o with Open => 1 | _ => 0 end)%Z) ->
       LInv total (Lim n g (put i (Thread r false) (ths s)))).
    { intros n g M B W. apply (put_inv total s i _ _ n g I N).
      - exact M.
      - rewrite bal_cons. lia.
      - discriminate.
      - intros [Q|Q]; [|discriminate Q]. specialize (W Q). rewrite at_open_awake. pose proof (at_open_pos (Thread r false)). lia. }
    destruct o.
    + destruct (Z.gtb_spec (open_files s) MAX_OPEN_FILES) as [G|G]; injection E as <-.
      * apply (put_inv total s i _ _ _ _ I N).
        -- exact I1.
        -- rewrite (bal_asleep _ true false). lia.
        -- intros _. exists r. reflexivity.
        -- intros _. rewrite at_open_awake, at_open_asleep.
           assert (Q := sum_at_open (put i (Thread (Open :: r) true) (ths s))). rewrite (sumz_put _ _ _ _ _ N), at_open_awake, at_open_asleep in Q. lia.
      * apply R; [lia|lia|]. intros W. specialize (I3 W). lia.
    + set (l1 := put i (Thread r false) (ths s)) in *. unfold wake in E.
      assert (B1 : sumz bal l1 = (sumz bal (ths s) + 1)%Z) by (unfold l1; rewrite (sumz_put _ _ _ _ _ N), bal_cons; lia).
      assert (F1 : Forall (fun t => asleep t = true -> exists r, todo t = Open :: r) l1) by (apply (forall_put _ _ _ _ _ N I4); discriminate).
      assert (O1 : waiting s -> (MAX_OPEN_FILES + 1 - open_files s <= sumz at_open l1)%Z).
      { intros W. specialize (I3 W). unfold l1. rewrite (sumz_put _ _ _ _ _ N), at_open_awake. pose proof (at_open_pos (Thread r false)). lia. }
      destruct (any_asleep l1) eqn:A.
      * destruct (nth_error l1 j) as [[tj aj]|] eqn:Nj; [|discriminate E]. cbn [asleep todo] in E. destruct aj; [|discriminate E]. injection E as <-.
        assert (Ij : In (Thread tj true) l1) by (apply nth_error_In in Nj; exact Nj).
        assert (Wt : waiting s).
        { exists (Thread tj true). split; [|reflexivity]. apply in_put_inv in Ij. destruct Ij as [F|Ij]; [discriminate F|exact Ij]. }
        assert (Oj : exists q, tj = Open :: q). { rewrite Forall_forall in F1. exact (F1 _ Ij eq_refl). }
        destruct Oj as [q ->]. constructor; cbn [open_files ths].
        -- lia.
        -- rewrite (sumz_put _ _ _ _ _ Nj), (bal_asleep _ true false). lia.
        -- intros _. rewrite (sumz_put _ _ _ _ _ Nj), at_open_awake, at_open_asleep. specialize (O1 Wt). lia.
        -- apply (forall_put _ _ _ _ _ Nj F1). discriminate.
      * injection E as <-. constructor; cbn [open_files ths].
        -- lia.
        -- lia.
        -- intros W. apply any_asleep_spec in W. cbn [ths] in W. rewrite A in W. discriminate W.
        -- exact F1.
    + injection E as <-. apply R; [exact I1|lia|]. intros W. specialize (I3 W). lia.
    + destruct (given s) as [|n]; [discriminate E|]. injection E as <-. apply R; [exact I1|lia|]. intros W. specialize (I3 W). lia.
  - destruct (nth_error (ths s) i) as [[p []]|] eqn:N; try discriminate E. injection E as <-.
    assert (W : waiting s) by (exists (Thread p true); split; [apply nth_error_In in N; exact N|reflexivity]).
    apply (put_inv total s i _ _ _ _ I N).
    + exact I1.
    + rewrite (bal_asleep _ true false). lia.
    + discriminate.
    + intros _. rewrite at_open_asleep. specialize (I3 W). pose proof (at_open_pos (Thread p false)). lia.
Qed.

Lemma lsteps_inv total ms : forall s s', LInv total s -> lsteps ms s = Some s' -> LInv total s'.
Proof.
  induction ms as [|m ms IH]; intros s s' I E; cbn in E; [injection E as <-; exact I|].
  destruct (lstep m s) as [s1|] eqn:Q; [|discriminate E]. exact (IH _ _ (lstep_inv _ _ _ _ I Q) E).
Qed.
Definition total_balance (progs : list (list op)) : Z := fold_right (fun p n => balance p + n)%Z 0%Z progs.
Lemma lstart_inv progs : LInv (total_balance progs) (lstart progs).
Proof.
  unfold lstart. constructor; cbn [open_files ths].
  - unfold MAX_OPEN_FILES. lia.
  - induction progs as [|p l IH]; [reflexivity|]. cbn [map]. rewrite sumz_cons. cbn [total_balance fold_right].
    change (fold_right _ 0%Z l) with (total_balance l). unfold bal at 1. cbn [todo]. lia.
  - intros [t [T A]]. cbn [ths] in T. apply in_map_iff in T. destruct T as [p [<- _]]. discriminate A.
  - apply Forall_forall. intros t T. apply in_map_iff in T. destruct T as [p [<- _]]. discriminate.
Qed.

(** * Results *)
Lemma limit progs ms s : lsteps ms (lstart progs) = Some s -> (open_files s <= MAX_OPEN_FILES + 1)%Z.
Proof. intros E. exact (l_max _ _ (lsteps_inv _ _ _ _ (lstart_inv progs) E)). Qed.

Lemma done_bal l : Forall (fun t => todo t = []) l -> sumz bal l = 0%Z.
Proof. induction 1 as [|t l H F IH]; [reflexivity|]. rewrite sumz_cons, IH. unfold bal. rewrite H. reflexivity. Qed.
Lemma count_zero progs ms s : lsteps ms (lstart progs) = Some s -> all_done s -> Forall (fun p => balance p = 0%Z) progs -> open_files s = 0%Z.
Proof.
  intros E D F. pose proof (l_bal _ _ (lsteps_inv _ _ _ _ (lstart_inv progs) E)) as B. rewrite (done_bal _ D) in B.
  assert (T : total_balance progs = 0%Z). { clear - F. induction F as [|p l H F' IH]; [reflexivity|]. cbn [total_balance fold_right]. change (fold_right _ 0%Z l) with (total_balance l). lia. }
  lia.
Qed.

(** A ready thread that opens or closes can go on. *)
Lemma awake_moves s i o r : nth_error (ths s) i = Some (Thread (o :: r) false) -> o = Open \/ o = Close \/ o = Give -> can_move s.
Proof.
  intros N O. unfold can_move, lstep, act. destruct O as [->|[->| ->]].
  - exists i, 0. rewrite N. destruct (Z.gtb _ _); eexists; reflexivity.
  - set (l1 := put i (Thread r false) (ths s)). destruct (any_asleep l1) eqn:A.
    + pose proof A as A'. apply any_asleep_spec in A. destruct A as [t [T1 T2]]. apply In_nth_error in T1. destruct T1 as [j J].
      exists i, j. rewrite N. fold l1. unfold wake. rewrite A', J, T2. eexists. reflexivity.
    + exists i, 0. rewrite N. fold l1. unfold wake. rewrite A. eexists. reflexivity.
  - exists i, 0. rewrite N. eexists. reflexivity.
Qed.
Lemma at_open_ready l : (0 < sumz at_open l)%Z -> exists i r, nth_error l i = Some (Thread (Open :: r) false).
Proof.
  induction l as [|t l IH]; intros H; [cbn in H; lia|]. rewrite sumz_cons in H.
  destruct (Z.eq_dec (at_open t) 0) as [Z|Z].
  - destruct IH as [i [r N]]; [lia|]. exists (S i), r. exact N.
  - destruct t as [[|[] r] []]; try (destruct (Z eq_refl)). exists 0, r. reflexivity.
Qed.
(** Threads wait only while the limit is reached. *)
Lemma waits_only_full progs ms s : lsteps ms (lstart progs) = Some s -> waiting s -> ~ can_move s -> open_files s = (MAX_OPEN_FILES + 1)%Z.
Proof.
  intros E W N. destruct (lsteps_inv _ _ _ _ (lstart_inv progs) E) as [I1 I2 I3 I4]. specialize (I3 W).
  destruct (Z.eq_dec (open_files s) (MAX_OPEN_FILES + 1)) as [Z|Z]; [exact Z|]. exfalso. apply N.
  destruct (at_open_ready (ths s)) as [i [r Q]]; [lia|]. apply (awake_moves s i Open r Q). auto.
Qed.

(** * One at a time *)
Definition fits (t : thread) : Prop :=
  one_at_a_time (todo t) \/ (exists r, todo t = Close :: r /\ one_at_a_time r /\ asleep t = false).
Lemma one_tail o r : one_at_a_time (o :: r) -> o = Open /\ exists q, r = Close :: q /\ one_at_a_time q.
Proof. inversion 1 as [|q Q]. subst. split; [reflexivity|]. exists q. auto. Qed.
Lemma fits_awake p : fits (Thread p true) -> fits (Thread p false).
Proof. intros [H|[r [H [Q F]]]]; [left; exact H|discriminate F]. Qed.

Lemma lstep_fits m s s' : Forall fits (ths s) -> lstep m s = Some s' -> Forall fits (ths s').
Proof.
  intros F E. destruct m as [i j|i]; cbn [lstep] in E.
  - unfold act in E. destruct (nth_error (ths s) i) as [[p a]|] eqn:N; [|discriminate E].
    assert (Fi : fits (Thread p a)). { rewrite Forall_forall in F. apply F. apply nth_error_In in N. exact N. }
    destruct p as [|o r]; [discriminate E|]. destruct a; [destruct o; discriminate E|].
    assert (Fr : fits (Thread r false)).
    { destruct Fi as [H|[q [H [Q _]]]]; cbn [todo] in H.
      - apply one_tail in H. destruct H as [_ [q [-> Q]]]. right. exists q. auto.
      - injection H as -> ->. left. exact Q. }
    destruct o.
    + destruct (Z.gtb _ _); injection E as <-; cbn [ths]; apply (forall_put _ _ _ _ _ N F); [|exact Fr].
      destruct Fi as [H|[q [H _]]]; [left; exact H|discriminate H].
    + destruct (wake j _) as [l|] eqn:W; [|discriminate E]. injection E as <-. cbn [ths]. unfold wake in W.
      pose proof (forall_put _ _ _ _ _ N F Fr) as F1. destruct (any_asleep _).
      * destruct (nth_error (put i (Thread r false) (ths s)) j) as [[pj aj]|] eqn:Nj; [|discriminate W]. cbn [asleep todo] in W.
        destruct aj; [|discriminate W]. injection W as <-. apply (forall_put _ _ _ _ _ Nj F1). apply fits_awake.
        rewrite Forall_forall in F1. apply F1. apply nth_error_In in Nj. exact Nj.
      * injection W as <-. exact F1.
    + destruct Fi as [H|[q [H _]]]; [apply one_tail in H; destruct H as [H _]; discriminate H|discriminate H].
    + destruct Fi as [H|[q [H _]]]; [apply one_tail in H; destruct H as [H _]; discriminate H|discriminate H].
  - destruct (nth_error (ths s) i) as [[p []]|] eqn:N; try discriminate E. injection E as <-. cbn [ths].
    apply (forall_put _ _ _ _ _ N F). apply fits_awake. rewrite Forall_forall in F. apply F. apply nth_error_In in N. exact N.
Qed.
Lemma lsteps_fits ms : forall s s', Forall fits (ths s) -> lsteps ms s = Some s' -> Forall fits (ths s').
Proof.
  induction ms as [|m ms IH]; intros s s' I E; cbn in E; [injection E as <-; exact I|].
  destruct (lstep m s) as [s1|] eqn:Q; [|discriminate E]. exact (IH _ _ (lstep_fits _ _ _ I Q) E).
Qed.
Lemma one_balance p : one_at_a_time p -> balance p = 0%Z.
Proof. induction 1 as [|r H IH]; [reflexivity|]. cbn [balance fold_right]. change (fold_right _ 0%Z r) with (balance r). lia. Qed.

Lemma never_stuck progs ms s : Forall one_at_a_time progs -> lsteps ms (lstart progs) = Some s -> all_done s \/ can_move s.
Proof.
  intros P E. destruct (lsteps_inv _ _ _ _ (lstart_inv progs) E) as [I1 I2 I3 I4].
  assert (F : Forall fits (ths s)).
  { apply (lsteps_fits ms (lstart progs)); [|exact E]. unfold lstart. cbn [ths]. clear E. clear I2. induction P as [|p l H P IH]; [constructor|]. cbn [map]. constructor; [left; exact H|exact IH]. }
  assert (C : all_done s \/ exists i o r a, nth_error (ths s) i = Some (Thread (o :: r) a)).
  { clear - s. unfold all_done. induction (ths s) as [|t l IH]; [left; constructor|]. destruct t as [[|o r] a].
    - destruct IH as [H|[i [o [r [b H]]]]]; [left; constructor; [reflexivity|exact H]|right; exists (S i), o, r, b; exact H].
    - right. exists 0, o, r, a. reflexivity. }
  destruct C as [C|[i [o [r [a N]]]]]; [left; exact C|right].
  assert (Fi : fits (Thread (o :: r) a)). { rewrite Forall_forall in F. apply F. apply nth_error_In in N. exact N. }
  destruct a.
  - (* it waits: somebody else holds a file, or it can be woken *)
    assert (W : waiting s) by (exists (Thread (o :: r) true); split; [apply nth_error_In in N; exact N|reflexivity]).
    destruct (Z.eq_dec (open_files s) (MAX_OPEN_FILES + 1)) as [Z|Z].
    + assert (H : exists i q, nth_error (ths s) i = Some (Thread (Close :: q) false)).
      { assert (T : total_balance progs = 0%Z).
        { clear - P. induction P as [|p l H F' IH]; [reflexivity|]. cbn [total_balance fold_right]. change (fold_right _ 0%Z l) with (total_balance l). rewrite (one_balance _ H). lia. }
        rewrite Z, T in I2. assert (S : (sumz bal (ths s) < 0)%Z) by (unfold MAX_OPEN_FILES in *; lia). clear - F S.
        induction F as [|t l H F IH]; [cbn in S; lia|]. rewrite sumz_cons in S. destruct H as [H|[q [H [Q A]]]].
        - unfold bal at 1 in S. rewrite (one_balance _ H) in S. destruct IH as [i [q N]]; [lia|]. exists (Datatypes.S i), q. exact N.
        - exists 0, q. destruct t as [p a]. cbn in H, A. subst. reflexivity. }
      destruct H as [k [q K]]. apply (awake_moves s k Close q K). auto.
    + specialize (I3 W). destruct (at_open_ready (ths s)) as [k [q K]]; [lia|]. apply (awake_moves s k Open q K). auto.
  - apply (awake_moves s i o r N). destruct Fi as [H|[q [H _]]]; [apply one_tail in H; destruct H as [H _]; auto|cbn in H; injection H as -> _; auto].
Qed.

(** * Termination *)
Definition lw (t : thread) : Z := (2 * Z.of_nat (length (todo t)) + (if asleep t then 0 else 1))%Z.
Lemma lw_pos t : (0 <= lw t)%Z. Proof. unfold lw. destruct (asleep t); lia. Qed.
Lemma sum_lw_pos l : (0 <= sumz lw l)%Z.
Proof. induction l as [|t l IH]; [cbn; lia|]. rewrite sumz_cons. pose proof (lw_pos t). lia. Qed.
Lemma lw_cons o r a : lw (Thread (o :: r) a) = (lw (Thread r a) + 2)%Z.
Proof. unfold lw. cbn [todo asleep length]. destruct a; lia. Qed.
Lemma lw_asleep p : lw (Thread p false) = (lw (Thread p true) + 1)%Z.
Proof. unfold lw. cbn. lia. Qed.
Lemma lstep_weight m s s' : lstep m s = Some s' ->
  match m with Act _ _ => (sumz lw (ths s') <= sumz lw (ths s) - 1)%Z | Spurious _ => (sumz lw (ths s') = sumz lw (ths s) + 1)%Z end.
Proof.
  destruct m as [i j|i]; cbn [lstep]; intros E.
  - unfold act in E. destruct (nth_error (ths s) i) as [[p a]|] eqn:N; [|discriminate E].
    destruct p as [|o r]; [discriminate E|]. destruct a; [destruct o; discriminate E|].
    pose proof (sumz_put lw i (Thread r false) _ _ N) as S. rewrite lw_cons in S.
    destruct o.
    + destruct (Z.gtb _ _); injection E as <-; cbn [ths].
      * rewrite (sumz_put _ _ _ _ _ N), (lw_asleep (Open :: r)). lia.
      * rewrite S. lia.
    + destruct (wake j _) as [l|] eqn:W; [|discriminate E]. injection E as <-. cbn [ths]. unfold wake in W. destruct (any_asleep _).
      * destruct (nth_error (put i (Thread r false) (ths s)) j) as [[pj aj]|] eqn:Nj; [|discriminate W]. cbn [asleep todo] in W.
        destruct aj; [|discriminate W]. injection W as <-. rewrite (sumz_put _ _ _ _ _ Nj), S, (lw_asleep pj). lia.
      * injection W as <-. rewrite S. lia.
    + injection E as <-. cbn [ths]. rewrite S. lia.
    + destruct (given s); [discriminate E|]. injection E as <-. cbn [ths]. rewrite S. lia.
  - destruct (nth_error (ths s) i) as [[p []]|] eqn:N; try discriminate E. injection E as <-. cbn [ths].
    rewrite (sumz_put _ _ _ _ _ N), lw_asleep. lia.
Qed.
Lemma lsteps_weight ms : forall s s', lsteps ms s = Some s' ->
  (Z.of_nat (length ms) + sumz lw (ths s') <= sumz lw (ths s) + 2 * Z.of_nat (lspurious ms))%Z.
Proof.
  induction ms as [|m ms IH]; intros s s' E; cbn [lsteps] in E; [injection E as <-; cbn; lia|].
  destruct (lstep m s) as [s1|] eqn:Q; [|discriminate E]. specialize (IH _ _ E). apply lstep_weight in Q.
  unfold lspurious in *. cbn [length filter]. destruct m; cbn [length]; lia.
Qed.
Lemma run_bound progs ms s : lsteps ms (lstart progs) = Some s ->
  length ms <= 2 * length (concat progs) + length progs + 2 * lspurious ms.
Proof.
  intros E. apply lsteps_weight in E. pose proof (sum_lw_pos (ths s)).
  assert (W : sumz lw (ths (lstart progs)) = Z.of_nat (2 * length (concat progs) + length progs)).
  { unfold lstart. cbn [ths]. clear. induction progs as [|p l IH]; [reflexivity|]. cbn [map concat length]. rewrite sumz_cons, IH, app_length. unfold lw. cbn [todo asleep]. lia. }
  lia.
Qed.

Lemma balance_app p q : balance (p ++ q) = (balance p + balance q)%Z.
Proof. induction p as [|o p IH]; [reflexivity|]. cbn [app balance fold_right]. change (fold_right _ 0%Z (p ++ q)) with (balance (p ++ q)). change (fold_right _ 0%Z p) with (balance p). rewrite IH. destruct o; lia. Qed.
Lemma total_concat progs : total_balance progs = balance (concat progs).
Proof. induction progs as [|p l IH]; [reflexivity|]. cbn [total_balance fold_right concat]. change (fold_right _ 0%Z l) with (total_balance l). rewrite balance_app, IH. reflexivity. Qed.
Lemma count_back progs ms s : lsteps ms (lstart progs) = Some s -> all_done s -> balance (concat progs) = 0%Z -> open_files s = 0%Z.
Proof.
  intros E D F. pose proof (l_bal _ _ (lsteps_inv _ _ _ _ (lstart_inv progs) E)) as B. rewrite (done_bal _ D), total_concat in B. lia.
Qed.
