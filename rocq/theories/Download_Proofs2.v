(** Downloads: runs in which nothing wakes the main thread but the downloads, and every input is read to its end (C63). *)
From Verif Require Import Base Download_Model Download_Spec Download_Proofs.
Local Open Scope N_scope.

Definition quiet (w : worker) : Prop := match w with WClose | WEnd => True | _ => False end.
Definition told (d : download) (b : bool) : Prop := if b then answers (blocks d) (succeeds d) = true else finishes d = false.
Definition told_by (s : sys) : Prop :=
  match cl s with MBack k => forall d t, nth_error (urls s) k = Some d -> nth_error (threads s) k = Some t -> told d (go s) /\ (go s = false -> quiet (pc t)) | _ => True end.
Record calm_inv (s : sys) : Prop := CalmInv {
  ci_threads : threads_ok s;
  ci_order : in_order s;
  ci_quiet : forall i t, (i < index s)%nat -> nth_error (threads s) i = Some t -> quiet (pc t);
  ci_count : length (results s) = match cl s with MRead k => S k | _ => index s end;
  ci_told : forall i b d, nth_error (results s) i = Some b -> nth_error (urls s) i = Some d -> told d b;
  ci_read : forall i t, (i < index s)%nat -> nth_error (results s) i = Some true -> nth_error (threads s) i = Some t -> pc t = WEnd /\ pipe t = [];
  ci_accepted : match cl s with MRead k => nth_error (results s) k = Some true | _ => True end;
  ci_back : told_by s }.

Lemma nth_snoc' : forall A (l : list A) x i, nth_error (l ++ [x]) i = if Nat.ltb i (length l) then nth_error l i else if Nat.eqb i (length l) then Some x else None.
Proof.
  induction l as [|y l IH]; intros x [|i]; cbn [app nth_error length]; try reflexivity; [destruct i; reflexivity|]. rewrite (IH x i). reflexivity.
Qed.
Lemma thread_there : forall s k, in_order s -> match cl s with MEnter k' | MWait k' | MBack k' | MRead k' => k' = k | _ => False end -> exists t d, nth_error (threads s) k = Some t /\ (threads_ok s -> nth_error (urls s) k = Some d).
Proof.
  intros s k O H. unfold in_order in O. assert (L : length (threads s) = S k) by (destruct (cl s); try contradiction; subst; exact O).
  destruct (nth_error (threads s) k) as [t|] eqn:E; [|apply nth_error_None in E; lia]. destruct (nth_error (urls s) k) as [d|] eqn:U.
  - exists t, d. split; [reflexivity|]. intros _. reflexivity.
  - exists t, (Download [] true). split; [reflexivity|]. intros [L' _]. apply nth_error_None in U. lia.
Qed.
Lemma calm_main : forall s s', main_step s = Some s' -> calm_inv s -> calm_inv s'.
Proof.
  intros s s' H I. destruct (every_step Main s s' H (ci_threads _ I) (ci_order _ I)) as (T' & O' & U' & _). pose proof I as [T O Q N TL RD AC BK].
  unfold main_step, in_order, index, told_by in *. destruct (cl s) as [k|k|k|k|k|] eqn:C.
  - destruct (nth_error (urls s) k) as [d|] eqn:U.
    + injection H as <-. constructor; try assumption; unfold index in *; cbn [set_main set_threads cl threads results urls] in *.
      * intros i t L J. rewrite nth_snoc' in J. destruct (Nat.ltb i (length (threads s))) eqn:E; [exact (Q i t L J)|]. apply Nat.ltb_ge in E. lia.
      * intros i t L R J. rewrite nth_snoc' in J. destruct (Nat.ltb i (length (threads s))) eqn:E; [exact (RD i t L R J)|]. apply Nat.ltb_ge in E. lia.
    + injection H as <-. assert (LU : (length (urls s) <= k)%nat) by (apply nth_error_None; exact U). destruct T as [LT T]. assert (K : k = length (urls s)) by lia.
      constructor; try assumption; unfold index, told_by in *; cbn [set_main cl threads results urls] in *; try rewrite <- K; try assumption; exact Logic.I.
  - injection H as <-. constructor; try assumption.
  - discriminate H.
  - destruct (thread_there s k (ci_order _ I)) as (t & d & E & U); [rewrite C; reflexivity|]. specialize (U T). destruct (BK d t U E) as [TD GQ]. injection H as <-. destruct (go s) eqn:G.
    + constructor; try assumption; unfold index, told_by in *; cbn [cl threads results urls] in *; try exact Logic.I.
      * rewrite app_length, N. cbn [length]. lia.
      * intros i b d' R U2. rewrite nth_snoc' in R. destruct (Nat.ltb i (length (results s))) eqn:E1; [exact (TL i b d' R U2)|]. destruct (Nat.eqb i (length (results s))) eqn:E2; [|discriminate R].
        injection R as <-. apply Nat.eqb_eq in E2. rewrite E2, N, U in U2. injection U2 as <-. exact TD.
      * intros i x L R J. rewrite nth_snoc' in R. destruct (Nat.ltb i (length (results s))) eqn:E1; [exact (RD i x L R J)|]. apply Nat.ltb_ge in E1. lia.
      * rewrite nth_snoc', N, Nat.ltb_irrefl, Nat.eqb_refl. reflexivity.
    + constructor; try assumption; unfold index, told_by in *; cbn [cl threads results urls] in *; try exact Logic.I.
      * intros i x L J. destruct (Nat.eq_dec i k) as [->|NE]; [rewrite E in J; injection J as <-; apply GQ; reflexivity|]. apply (Q i x); [lia|exact J].
      * rewrite app_length, N. cbn [length]. lia.
      * intros i b d' R U2. rewrite nth_snoc' in R. destruct (Nat.ltb i (length (results s))) eqn:E1; [exact (TL i b d' R U2)|]. destruct (Nat.eqb i (length (results s))) eqn:E2; [|discriminate R].
        injection R as <-. apply Nat.eqb_eq in E2. rewrite E2, N, U in U2. injection U2 as <-. exact TD.
      * intros i x L R J. rewrite nth_snoc' in R. destruct (Nat.ltb i (length (results s))) eqn:E1.
        -- apply Nat.ltb_lt in E1. apply (RD i x); [lia|exact R|exact J].
        -- destruct (Nat.eqb i (length (results s))); discriminate R.
  - destruct (nth_error (threads s) k) as [[w p g]|] eqn:E; [|discriminate H]. destruct p as [|c p].
    + destruct w; try discriminate H. injection H as <-. constructor; try assumption; unfold index, told_by in *; cbn [set_main cl threads results urls] in *; try exact Logic.I.
      * intros i x L J. destruct (Nat.eq_dec i k) as [->|NE]; [rewrite E in J; injection J as <-; exact Logic.I|]. apply (Q i x); [lia|exact J].
      * intros i x L R J. destruct (Nat.eq_dec i k) as [->|NE]; [rewrite E in J; injection J as <-; split; reflexivity|]. apply (RD i x); [lia|exact R|exact J].
    + assert (H' : Some (put k (Thread w [] (g ++ c :: p)) s) = Some s') by (destruct w; exact H). injection H' as <-. set (t1 := Thread w [] (g ++ c :: p)) in *.
      assert (CC : cl (put k t1 s) = MRead k) by exact C.
      constructor; try assumption; unfold index, told_by; rewrite ?CC; change (results (put k t1 s)) with (results s); change (urls (put k t1 s)) with (urls s); try assumption; try exact Logic.I.
      * intros i x L J. rewrite (nth_put _ _ _ _ _ E) in J. destruct (Nat.eqb i k) eqn:X; [apply Nat.eqb_eq in X; lia|]. exact (Q i x L J).
      * intros i x L R J. rewrite (nth_put _ _ _ _ _ E) in J. destruct (Nat.eqb i k) eqn:X; [apply Nat.eqb_eq in X; lia|]. exact (RD i x L R J).
  - discriminate H.
Qed.
(** what a step of a thread does to the rest *)
Definition same_rest (s s' : sys) : Prop := urls s' = urls s /\ results s' = results s.
Lemma worker_effect : forall i s s' d t0, worker_step i s = Some s' -> nth_error (threads s) i = Some t0 -> thread_ok d t0 ->
  exists t, threads s' = threads (put i t s) /\ same_rest s s' /\ (quiet (pc t0) -> quiet (pc t)) /\ (pc t0 = WEnd -> False) /\ 
  ((go s' = go s /\ cl s' = cl s) \/ (exists b, ~ quiet (pc t0) /\ told d b /\ (b = false -> quiet (pc t)) /\ go s' = b /\ cl s' = match cl s with MWait k => MBack k | m => m end)).
Proof.
  intros i s s' d t0 H E [B S]. unfold worker_step in H. rewrite E in H. destruct t0 as [w p g]. cbn [got pipe pc] in *. destruct w as [[|b l] ok|b l ok|b l ok|e|e| |]; cbn [state_ok] in S; cbn [quiet].
  - injection H as <-. eexists. split; [reflexivity|]. split; [split; reflexivity|]. split; [intros []|]. split; [discriminate|]. left. split; reflexivity.
  - destruct (code b =? 200); injection H as <-; (eexists; split; [reflexivity|]; split; [split; reflexivity|]; split; [intros []|]; split; [discriminate|]; left; split; reflexivity).
  - injection H as <-. eexists. split; [reflexivity|]. split; [split; reflexivity|]. split; [intros []|]. split; [discriminate|]. right. exists true. split; [intros []|]. split; [exact (proj2 S)|].
    split; [discriminate|]. split; reflexivity.
  - destruct (Nat.ltb (length p) (room s)); [|discriminate H]. injection H as <-. eexists. split; [reflexivity|]. split; [split; reflexivity|]. split; [intros []|]. split; [discriminate|]. left. split; reflexivity.
  - injection H as <-. eexists. split; [reflexivity|]. split; [split; reflexivity|]. split; [intros []|]. split; [discriminate|]. left. split; reflexivity.
  - injection H as <-. eexists. split; [reflexivity|]. split; [split; reflexivity|]. split; [intros []|]. split; [discriminate|]. right. exists (negb e). split; [intros []|].
    split; [unfold told; destruct (negb e) eqn:X; [apply finishes_answers; symmetry; exact S|symmetry; exact S]|]. split; [intros _; exact I|]. split; reflexivity.
  - injection H as <-. eexists. split; [reflexivity|]. split; [split; reflexivity|]. split; [intros _; exact I|]. split; [discriminate|]. left. split; reflexivity.
  - discriminate H.
Qed.
Lemma calm_worker : forall i s s', worker_step i s = Some s' -> calm_inv s -> calm_inv s'.
Proof.
  intros i s s' H I. destruct (every_step (Worker i) s s' H (ci_threads _ I) (ci_order _ I)) as (T' & O' & U' & _). destruct I as [T O Q N TL RD AC BK].
  destruct (nth_error (threads s) i) as [t0|] eqn:E; [|unfold worker_step in H; rewrite E in H; discriminate H]. destruct (proj2 T i t0 E) as (d & U & TO).
  destruct (worker_effect i s s' d t0 H E TO) as (t & TH & [_ RS] & QQ & NE & EF).
  assert (NT : forall j, nth_error (threads s') j = if Nat.eqb j i then Some t else nth_error (threads s) j) by (intros j; rewrite TH; apply (nth_put _ _ _ _ _ E)).
  assert (IX : index s' = index s) by (unfold index; rewrite U'; destruct EF as [[_ ->]|(b & _ & _ & _ & _ & ->)]; destruct (cl s); reflexivity).
  constructor; try assumption.
  - rewrite IX. intros j x L J. rewrite NT in J. destruct (Nat.eqb j i) eqn:X; [|exact (Q j x L J)]. injection J as <-. apply Nat.eqb_eq in X. subst j. apply QQ, (Q i t0 L E).
  - rewrite RS, N, IX. destruct EF as [[_ ->]|(b & _ & _ & _ & _ & ->)]; destruct (cl s); reflexivity.
  - rewrite RS, U'. exact TL.
  - rewrite IX, RS. intros j x L R J. rewrite NT in J. destruct (Nat.eqb j i) eqn:X; [|exact (RD j x L R J)]. apply Nat.eqb_eq in X. subst j. destruct (RD i t0 L R E) as [W _]. destruct (NE W).
  - rewrite RS. destruct EF as [[_ ->]|(b & _ & _ & _ & _ & ->)]; destruct (cl s); exact AC.
  - unfold told_by in *. rewrite U'. destruct EF as [[GO CL]|(b & NQ & TD & BQ & GO & CL)]; rewrite GO, CL.
    + destruct (cl s) as [k|k|k|k|k|] eqn:C; try exact Logic.I. intros d' x U2 J. rewrite NT in J. destruct (Nat.eqb k i) eqn:X; [|exact (BK d' x U2 J)].
      injection J as <-. apply Nat.eqb_eq in X. subst i. destruct (BK d' t0 U2 E) as [A B]. split; [exact A|]. intros G. apply QQ, B, G.
    + assert (IK : forall k, index s = k -> (length (threads s) = S k) -> i = k).
      { intros k K LEN. assert (L1 : (i < S k)%nat) by (rewrite <- LEN; apply nth_error_Some; congruence). destruct (Nat.eq_dec i k) as [K1|K1]; [exact K1|]. destruct NQ. apply (Q i t0); [lia|exact E]. }
      unfold in_order, index in *.
      destruct (cl s) as [k|k|k|k|k|] eqn:C; try exact Logic.I; assert (K : i = k) by (apply IK; [reflexivity|exact O]); subst i; intros d' x U2 J; pose proof (NT k) as NI; rewrite Nat.eqb_refl in NI; rewrite NI in J; injection J as <-; rewrite U in U2; injection U2 as <-; split; assumption.
Qed.
Lemma calm_start : forall us r, calm_inv (start us r).
Proof.
  intros us r. destruct (start_ok us r) as [T O]. constructor; try assumption; try exact I; try reflexivity; cbn.
  - intros i t L. lia.
  - intros [|i] b d H; discriminate H.
  - intros i t L. lia.
Qed.
Lemma calm_steps : forall ls s s', calm ls -> steps ls s = Some s' -> calm_inv s -> calm_inv s'.
Proof.
  induction ls as [|l ls IH]; intros s s' F H I; [injection H as <-; exact I|]. inversion F as [|x y [F1 F2] F3]; subst. cbn [steps] in H. destruct (step l s) as [s1|] eqn:E; [|discriminate H].
  apply (IH s1 s' F3 H). destruct l as [|i| |]; [exact (calm_main s s1 E I)|exact (calm_worker i s s1 E I)|destruct (F1 eq_refl)|destruct (F2 eq_refl)].
Qed.
(** the answers, and the inputs that are read *)
Lemma calm_answers : forall us r ls s, calm ls -> reached us r ls s ->
  (forall i b d, nth_error (results s) i = Some b -> nth_error us i = Some d -> (complete d = true -> b = true) /\ (b = true -> answers (blocks d) (succeeds d) = true)) /\
  (cl s = MEnd -> length (results s) = length us) /\
  (forall i d t, (i < index s)%nat -> nth_error (results s) i = Some true -> nth_error us i = Some d -> nth_error (threads s) i = Some t ->
     got t = arriving (blocks d) /\ pipe t = [] /\ (complete d = true -> got t = content d)).
Proof.
  intros us r ls s C H. pose proof (calm_steps ls _ s C H (calm_start us r)) as I. destruct (start_ok us r) as [T0 O0]. destruct (steps_ok ls _ s H T0 O0) as (T & O & US & _). change (urls (start us r)) with us in US.
  destruct I as [_ _ Q N TL RD AC BK]. rewrite US in *. split; [|split].
  - intros i b d R U. pose proof (TL i b d R U) as TD. split.
    + intros CD. destruct b; [reflexivity|]. unfold told in TD. rewrite (complete_finishes d CD) in TD. discriminate TD.
    + intros ->. exact TD.
  - intros M. unfold index in N. rewrite M, US in N. exact N.
  - intros i d t L R U E. destruct (RD i t L R E) as [W P]. destruct (bytes_arrive us r ls s i d t H U E) as (_ & _ & B & CA). specialize (B W). rewrite P, app_nil_r in B. split; [exact B|]. split; [exact P|].
    intros CD. rewrite B. apply CA, CD.
Qed.
(** a state in which nothing goes on: only the wait of the main thread holds it up *)
Lemma worker_can : forall s i t, nth_error (threads s) i = Some t -> (pipe t = [] -> (0 < room s)%nat) -> (match pc t with WWrite _ _ _ => pipe t = [] | WEnd => False | _ => True end) -> step (Worker i) s <> None.
Proof.
  intros s i [w p g] E RM P. cbn [step pc pipe] in *. unfold worker_step. rewrite E. destruct w as [[|b l] ok|b l ok|b l ok|e|e| |]; try discriminate.
  - destruct (code b =? 200); discriminate.
  - subst p. specialize (RM eq_refl). cbn [length]. destruct (Nat.ltb 0 (room s)) eqn:X; [discriminate|]. apply Nat.ltb_ge in X. lia.
  - destruct P.
Qed.
Lemma stuck_waits : forall us r ls s, (0 < r)%nat -> reached us r ls s -> stuck s -> cl s = MEnd \/ exists k, cl s = MWait k.
Proof.
  intros us r ls s R H [SM SW]. destruct (start_ok us r) as [T0 O0]. destruct (steps_ok ls _ s H T0 O0) as (T & O & US & RM). change (room (start us r)) with r in RM.
  cbn [step] in SM. unfold main_step in SM. destruct (cl s) as [k|k|k|k|k|] eqn:C.
  - destruct (nth_error (urls s) k); discriminate SM.
  - discriminate SM.
  - right. exists k. reflexivity.
  - discriminate SM.
  - exfalso. destruct (thread_there s k O) as (t & d & E & _); [rewrite C; reflexivity|]. rewrite E in SM. destruct t as [w p g]. destruct p as [|c p]; [|destruct w; discriminate SM].
    destruct w; try discriminate SM; apply (worker_can s k _ E); cbn [pc pipe]; try (intros _; rewrite RM; exact R); try exact Logic.I; try reflexivity; apply (SW k).
  - left. reflexivity.
Qed.
Definition pending (w : worker) : Prop := match w with WPerform _ _ | WGo _ _ _ | WErrors _ | WTell _ => True | _ => False end.
Definition awaited (k : nat) (s : sys) : Prop := index s = k /\ cl s = MWait k /\ (exists t, nth_error (threads s) k = Some t /\ pending (pc t)) \/ (cl s <> MWait k /\ (k <= index s)%nat /\ cl s <> MEnter k /\ cl s <> MNext k).
Lemma awaited_step : forall k l s s', step l s = Some s' -> threads_ok s -> in_order s -> (k < length (urls s))%nat -> awaited k s -> awaited k s'.
Proof.
  intros k l s s' H T O LK [(_ & C & t & E & P)|(C & K & C2 & C3)].
  - destruct l as [|i| |]; cbn [step] in H.
    + unfold main_step in H. rewrite C in H. discriminate H.
    + destruct (Nat.eq_dec i k) as [->|NE].
      * unfold worker_step in H. rewrite E in H. destruct t as [w p g]. cbn [pc] in P. destruct w as [[|b l] ok|b l ok|b l ok|e|e| |]; try contradiction P.
        -- injection H as <-. left. split; [unfold index; cbn; rewrite C; reflexivity|]. split; [exact C|]. eexists. rewrite (nth_put _ _ _ _ _ E), Nat.eqb_refl. split; [reflexivity|exact I].
        -- destruct (code b =? 200); [injection H as <-|destruct (Nat.eqb (returned b) (length (data b))); injection H as <-]; (left; split; [unfold index; cbn; rewrite C; reflexivity|]; split; [exact C|]; eexists;
             rewrite (nth_put _ _ _ _ _ E), Nat.eqb_refl; split; [reflexivity|exact I]).
        -- injection H as <-. right. unfold index. cbn. rewrite C. repeat split; try discriminate; lia.
        -- injection H as <-. left. split; [unfold index; cbn; rewrite C; reflexivity|]. split; [exact C|]. eexists. change (threads (setCurlErrors e (put k (Thread (WTell e) p g) s))) with (threads (put k (Thread (WTell e) p g) s)).
           rewrite (nth_put _ _ _ _ _ E), Nat.eqb_refl. split; [reflexivity|exact I].
        -- injection H as <-. right. unfold index. cbn. rewrite C. repeat split; try discriminate; lia.
      * unfold worker_step in H. destruct (nth_error (threads s) i) as [[w p g]|] eqn:E2; [|discriminate H].
        assert (X : forall t', nth_error (threads (put i t' s)) k = Some t) by (intros t'; rewrite (nth_put _ _ _ _ _ E2); destruct (Nat.eqb k i) eqn:X; [apply Nat.eqb_eq in X; congruence|exact E]).
        assert (LEFT : forall s1, cl s1 = MWait k -> threads s1 = threads s' -> s1 = s' -> (exists t', threads s' = threads (put i t' s)) -> awaited k s').
        { intros s1 C1 _ <- (t' & TH). left. split; [unfold index; rewrite C1; reflexivity|]. split; [exact C1|]. exists t. rewrite TH. split; [apply X|exact P]. }
        destruct w as [[|b l] ok|b l ok|b l ok|e|e| |]; try discriminate H.
        -- injection H as <-. eapply LEFT; [|reflexivity|reflexivity|eexists; reflexivity]. exact C.
        -- destruct (code b =? 200); injection H as <-; (eapply LEFT; [|reflexivity|reflexivity|eexists; reflexivity]; exact C).
        -- injection H as <-. right. unfold index. cbn. rewrite C. repeat split; try discriminate; lia.
        -- destruct (Nat.ltb (length p) (room s)); [|discriminate H]. injection H as <-. eapply LEFT; [|reflexivity|reflexivity|eexists; reflexivity]. exact C.
        -- injection H as <-. eapply LEFT; [|reflexivity|reflexivity|eexists; reflexivity]. exact C.
        -- injection H as <-. right. unfold index. cbn. rewrite C. repeat split; try discriminate; lia.
        -- injection H as <-. eapply LEFT; [|reflexivity|reflexivity|eexists; reflexivity]. exact C.
    + rewrite C in H. injection H as <-. right. unfold index. cbn. repeat split; try discriminate; lia.
    + rewrite C in H. discriminate H.
  - right. destruct l as [|i| |]; cbn [step] in H.
    + unfold main_step, index in *. destruct (cl s) as [k'|k'|k'|k'|k'|] eqn:C'.
      * assert (k <> k') by congruence. destruct (nth_error (urls s) k') eqn:U; injection H as <-; cbn; [repeat split; try congruence; lia|]. apply nth_error_None in U. repeat split; try discriminate. lia.
      * injection H as <-. cbn. assert (k <> k') by congruence. repeat split; try congruence; lia.
      * discriminate H.
      * injection H as <-. cbn. destruct (go s); repeat split; try discriminate; try lia. intros X. injection X as X. lia.
      * destruct (nth_error (threads s) k') as [[w p g]|]; [|discriminate H]. destruct p as [|c p].
        -- destruct w; try discriminate H. injection H as <-. cbn. repeat split; try discriminate; try lia. intros X. injection X as X. lia.
        -- assert (H' : Some (put k' (Thread w [] (g ++ c :: p)) s) = Some s') by (destruct w; exact H). injection H' as <-. cbn. rewrite C'. repeat split; try discriminate; lia.
      * discriminate H.
    + assert (CM : urls s' = urls s /\ (cl s' = cl s \/ exists k', cl s = MWait k' /\ cl s' = MBack k')).
      { split; [destruct (every_step (Worker i) s s' H T O) as (_ & _ & U & _); exact U|]. clear - H. unfold worker_step in H. destruct (nth_error (threads s) i) as [[w p g]|]; [|discriminate H]. destruct w as [[|b l] ok|b l ok|b l ok|e|e| |]; try discriminate H.
        - injection H as <-. left. reflexivity.
        - destruct (code b =? 200); injection H as <-; left; reflexivity.
        - injection H as <-. cbn. destruct (cl s); try (left; reflexivity). right. eexists. split; reflexivity.
        - destruct (Nat.ltb (length p) (room s)); [|discriminate H]. injection H as <-. left. reflexivity.
        - injection H as <-. left. reflexivity.
        - injection H as <-. cbn. destruct (cl s); try (left; reflexivity). right. eexists. split; reflexivity.
        - injection H as <-. left. reflexivity. }
      destruct CM as [U [CM|(k' & C4 & C5)]]; unfold index in *; [rewrite CM, U; repeat split; assumption|]. rewrite C4 in *. rewrite C5. repeat split; try discriminate. exact K.
    + destruct (cl s) as [k'|k'|k'|k'|k'|] eqn:C'; try discriminate H. injection H as <-. unfold index in *. rewrite C' in K. cbn. repeat split; try discriminate. exact K.
    + destruct (cl s) as [k'|k'|k'|k'|k'|] eqn:C'; try discriminate H. injection H as <-. unfold index in *. rewrite C' in K. cbn. repeat split; try discriminate; [lia|]. intros X. injection X as X. lia.
Qed.
(** if the main thread waits before the download has anything to say, it is woken *)
Lemma pending_can : forall s k t, nth_error (threads s) k = Some t -> pending (pc t) -> step (Worker k) s <> None.
Proof.
  intros s k [w p g] E P. cbn [step pc] in *. unfold worker_step. rewrite E. destruct w as [[|b l] ok|b l ok|b l ok|e|e| |]; try contradiction P; try discriminate. destruct (code b =? 200); discriminate.
Qed.
Lemma awaited_steps : forall k ls s s', steps ls s = Some s' -> threads_ok s -> in_order s -> (k < length (urls s))%nat -> awaited k s -> awaited k s'.
Proof.
  intros k. induction ls as [|x ls IH]; intros s1 s2 S1 T1 O1 L1 A1; [injection S1 as <-; exact A1|]. cbn [steps] in S1. destruct (step x s1) as [s3|] eqn:E; [|discriminate S1].
  destruct (every_step x s1 s3 E T1 O1) as (T3 & O3 & U3 & _). apply (IH s3 s2 S1 T3 O3); [rewrite U3; exact L1|]. exact (awaited_step k x s1 s3 E T1 O1 L1 A1).
Qed.
Lemma waits_in_time : forall us r ls s k d t ls' s', reached us r ls s -> cl s = MWait k -> nth_error us k = Some d -> nth_error (threads s) k = Some t -> pc t = WPerform (blocks d) (succeeds d) ->
  steps ls' s = Some s' -> stuck s' -> cl s' <> MWait k.
Proof.
  intros us r ls s k d t ls' s' H C U E P H' [SM SW]. destruct (start_ok us r) as [T0 O0]. destruct (steps_ok ls _ s H T0 O0) as (T & O & _ & _).
  assert (A : awaited k s) by (left; split; [unfold index; rewrite C; reflexivity|]; split; [exact C|]; exists t; split; [exact E|rewrite P; exact I]).
  assert (LK : (k < length (urls s))%nat) by (destruct T as [L _]; assert (k < length (threads s))%nat by (apply nth_error_Some; congruence); lia).
  destruct (awaited_steps k ls' s s' H' T O LK A) as [(_ & C' & t' & E' & PE)|(C' & _)]; [|exact C']. exfalso. exact (pending_can s' k t' E' PE (SW k)).
Qed.
