(** Downloads: what every run keeps (C63). *)
From Verif Require Import Base Download_Model Download_Spec.
Local Open Scope N_scope.

Definition fine (b : block) : bool := Nat.eqb (returned b) (length (data b)).
Definition finishes (d : download) : bool := forallb fine (blocks d) && succeeds d.
Lemma passes_fine : forall b, passes b = true -> fine b = true.
Proof. intros b H. unfold passes, fine, returned in *. apply andb_prop in H. destruct H as [-> H]. destruct (taken b); [exact H|discriminate H]. Qed.
Lemma complete_finishes : forall d, complete d = true -> finishes d = true.
Proof.
  intros d H. unfold complete, finishes in *. apply andb_prop in H. destruct H as [H ->]. rewrite andb_true_r. rewrite forallb_forall in *. intros b I. apply passes_fine, H, I.
Qed.
Lemma fine_empty : forall b, (code b =? 200) = false -> fine b = true -> data b = [].
Proof. intros b C F. unfold fine, returned in F. rewrite C in F. destruct (data b); [reflexivity|discriminate F]. Qed.
Lemma finishes_answers : forall l ok, forallb fine l && ok = true -> answers l ok = true.
Proof.
  induction l as [|b l IH]; intros ok H; [exact H|]. cbn [forallb answers] in *. destruct (code b =? 200) eqn:C; [reflexivity|]. apply andb_prop in H. destruct H as [H OK]. apply andb_prop in H. destruct H as [F H].
  rewrite (fine_empty _ C F). cbn [orb]. apply IH. rewrite H, OK. reflexivity.
Qed.
Lemma complete_arriving : forall d, complete d = true -> arriving (blocks d) = content d.
Proof.
  intros [l ok] H. unfold complete, content in *. cbn [blocks succeeds] in *. apply andb_prop in H. destruct H as [H _]. induction l as [|b l IH]; [reflexivity|]. cbn [forallb arriving map concat] in *.
  apply andb_prop in H. destruct H as [P H]. unfold passes in P. apply andb_prop in P. destruct P as [-> P]. destruct (taken b) as [n|]; [|discriminate P]. rewrite P. apply Nat.eqb_eq in P. subst n. rewrite firstn_all, (IH H). reflexivity.
Qed.
(** one block more *)
Lemma arriving_cons : forall b l, arriving (b :: l) = firstn (returned b) (data b) ++ (if fine b then arriving l else []).
Proof.
  intros b l. cbn [arriving]. unfold fine, returned. destruct (code b =? 200).
  - destruct (taken b) as [n|]; [reflexivity|]. destruct (data b); reflexivity.
  - destruct (data b); reflexivity.
Qed.
Lemma arriving_prefix : forall l, starts_with (arriving l) (concat (map data l)).
Proof.
  induction l as [|b l IH]; [exists []; reflexivity|]. rewrite arriving_cons. cbn [map concat]. unfold fine. destruct (Nat.eqb (returned b) (length (data b))) eqn:E.
  - apply Nat.eqb_eq in E. rewrite E, firstn_all. destruct IH as (r & ->). exists r. rewrite app_assoc. reflexivity.
  - exists (skipn (returned b) (data b) ++ concat (map data l)). rewrite app_nil_r, app_assoc, firstn_skipn. reflexivity.
Qed.

(** ** What holds of each thread *)
Definition rest (w : worker) : bytes := match w with WPerform l _ => arriving l | WGo b l _ | WWrite b l _ => arriving (b :: l) | _ => [] end.
Definition state_ok (d : download) (w : worker) : Prop :=
  match w with
  | WPerform l ok => forallb fine l && ok = finishes d /\ (answers l ok = true -> answers (blocks d) (succeeds d) = true)
  | WGo b l ok | WWrite b l ok => forallb fine (b :: l) && ok = finishes d /\ answers (blocks d) (succeeds d) = true
  | WErrors e | WTell e => negb e = finishes d
  | WClose | WEnd => True
  end.
Definition thread_ok (d : download) (t : thread) : Prop := got t ++ pipe t ++ rest (pc t) = arriving (blocks d) /\ state_ok d (pc t).
Definition threads_ok (s : sys) : Prop := (length (threads s) <= length (urls s))%nat /\
  forall i t, nth_error (threads s) i = Some t -> exists d, nth_error (urls s) i = Some d /\ thread_ok d t.
Lemma nth_put : forall i t s j t0, nth_error (threads s) i = Some t0 -> nth_error (threads (put i t s)) j = if Nat.eqb j i then Some t else nth_error (threads s) j.
Proof.
  intros i t s j t0 H. unfold put. cbn [threads set_threads]. generalize dependent j. generalize dependent i. generalize (threads s) as l.
  induction l as [|x l IH]; intros [|i] H j; try discriminate H; [destruct j; reflexivity|]. cbn [nth_error firstn skipn app] in *. destruct j as [|j]; [reflexivity|]. cbn [nth_error Nat.eqb]. apply (IH i H j).
Qed.
Lemma length_put : forall i t s t0, nth_error (threads s) i = Some t0 -> length (threads (put i t s)) = length (threads s).
Proof.
  intros i t s t0 H. unfold put. cbn [threads set_threads]. generalize dependent i. generalize (threads s) as l. induction l as [|x l IH]; intros [|i] H; try discriminate H; [reflexivity|].
  cbn [nth_error firstn skipn app length] in *. rewrite (IH i H). reflexivity.
Qed.
Lemma put_ok : forall s i t0 t d, threads_ok s -> nth_error (threads s) i = Some t0 -> nth_error (urls s) i = Some d -> thread_ok d t -> threads_ok (put i t s).
Proof.
  intros s i t0 t d [L H] E U T. split; [rewrite (length_put _ _ _ _ E); exact L|]. intros j x J. rewrite (nth_put _ _ _ _ _ E) in J. change (urls (put i t s)) with (urls s).
  destruct (Nat.eqb j i) eqn:X; [|exact (H j x J)]. apply Nat.eqb_eq in X. subst j. injection J as <-. exists d. split; assumption.
Qed.
Lemma same_ok : forall s s', urls s' = urls s -> threads s' = threads s -> threads_ok s -> threads_ok s'.
Proof. intros s s' U T H. unfold threads_ok in *. rewrite U, T. exact H. Qed.
(** what a thread becomes *)
Lemma worker_thread : forall i s s' d, worker_step i s = Some s' -> nth_error (urls s) i = Some d -> (forall t, nth_error (threads s) i = Some t -> thread_ok d t) ->
  exists t0 t, nth_error (threads s) i = Some t0 /\ threads s' = threads (put i t s) /\ urls s' = urls s /\ thread_ok d t.
Proof.
  intros i s s' d H U T. unfold worker_step in H. destruct (nth_error (threads s) i) as [[w p g]|] eqn:E; [|discriminate H]. specialize (T _ eq_refl). destruct T as [B S]. cbn [got pipe pc] in *.
  exists (Thread w p g). destruct w as [[|b l] ok|b l ok|b l ok|e|e| |]; cbn [rest state_ok] in *.
  - injection H as <-. eexists. split; [reflexivity|]. split; [reflexivity|]. split; [reflexivity|]. split; [exact B|]. cbn [pc state_ok]. rewrite Bool.negb_involutive. exact (proj1 S).
  - destruct S as [S1 S2]. destruct (code b =? 200) eqn:C.
    + injection H as <-. eexists. split; [reflexivity|]. split; [reflexivity|]. split; [reflexivity|]. split; [exact B|]. cbn [pc state_ok]. split; [exact S1|]. apply S2. cbn [answers]. rewrite C. reflexivity.
    + rewrite arriving_cons in B. fold (fine b) in H. destruct (fine b) eqn:F.
      * injection H as <-. pose proof (fine_empty _ C F) as D. eexists. split; [reflexivity|]. split; [reflexivity|]. split; [reflexivity|]. split; [cbn [got pipe pc rest]; rewrite D, firstn_nil in B; exact B|].
        cbn [pc state_ok]. cbn [forallb] in S1. rewrite F in S1. split; [exact S1|]. intros A. apply S2. cbn [answers]. rewrite C, D. exact A.
      * injection H as <-. eexists. split; [reflexivity|]. split; [reflexivity|]. split; [reflexivity|]. split.
        -- cbn [got pipe pc rest]. rewrite app_nil_r in B. unfold returned in B. rewrite C in B. exact B.
        -- cbn [pc state_ok]. cbn [forallb] in S1. rewrite F in S1. exact S1.
  - injection H as <-. eexists. split; [reflexivity|]. split; [reflexivity|]. split; [reflexivity|]. split; [exact B|exact S].
  - destruct S as [S1 S2]. destruct (Nat.ltb (length p) (room s)); [|discriminate H]. injection H as <-. eexists. split; [reflexivity|]. split; [reflexivity|]. split; [reflexivity|].
    rewrite arriving_cons in B. fold (fine b). cbn [forallb] in S1. destruct (fine b) eqn:F.
    + split; [cbn [got pipe pc rest]; rewrite <- app_assoc; exact B|]. cbn [pc state_ok]. split; [exact S1|]. intros _. exact S2.
    + split; [cbn [got pipe pc rest]; rewrite app_nil_r in *; exact B|]. cbn [pc state_ok]. exact S1.
  - injection H as <-. eexists. split; [reflexivity|]. split; [reflexivity|]. split; [reflexivity|]. split; [exact B|exact S].
  - injection H as <-. eexists. split; [reflexivity|]. split; [reflexivity|]. split; [reflexivity|]. split; [exact B|exact I].
  - injection H as <-. eexists. split; [reflexivity|]. split; [reflexivity|]. split; [reflexivity|]. split; [exact B|exact I].
  - discriminate H.
Qed.
Lemma new_ok : forall d, thread_ok d (Thread (WPerform (blocks d) (succeeds d)) [] []).
Proof. intros d. split; [reflexivity|]. split; [reflexivity|]. intros A. exact A. Qed.
Lemma nth_snoc : forall (l : list thread) x i t, nth_error (l ++ [x]) i = Some t -> nth_error l i = Some t \/ (i = length l /\ t = x).
Proof.
  induction l as [|y l IH]; intros x [|i] t H; cbn [app nth_error length] in *; try (left; exact H).
  - injection H as <-. right. split; reflexivity.
  - destruct i; discriminate H.
  - destruct (IH x i t H) as [A|[-> ->]]; [left; exact A|right; split; reflexivity].
Qed.
(** the main thread starts the threads in order *)
Definition index (s : sys) : nat := match cl s with MNext k => k | MEnter k | MWait k | MBack k | MRead k => k | MEnd => length (urls s) end.
Definition in_order (s : sys) : Prop :=
  match cl s with MNext k => length (threads s) = k | MEnter k | MWait k | MBack k | MRead k => length (threads s) = S k | MEnd => True end.
Lemma every_step : forall l s s', step l s = Some s' -> threads_ok s -> in_order s -> threads_ok s' /\ in_order s' /\ urls s' = urls s /\ room s' = room s.
Proof.
  intros l s s' H T O. destruct l as [|i| |]; cbn [step] in H.
  - unfold main_step in H. unfold in_order in O. destruct (cl s) as [k|k|k|k|k|] eqn:C.
    + destruct (nth_error (urls s) k) as [d|] eqn:U; injection H as <-.
      * split; [|split; [unfold in_order; cbn [set_main set_threads cl threads]; rewrite app_length, O; cbn [length]; lia|split; reflexivity]].
        assert (K : (k < length (urls s))%nat) by (apply nth_error_Some; congruence). destruct T as [L T]. split; [cbn [set_main set_threads threads urls]; rewrite app_length, O; cbn [length]; lia|].
        intros i t J. cbn [set_main set_threads threads urls] in *. destruct (nth_snoc _ _ _ _ J) as [A|[-> ->]]; [exact (T i t A)|]. rewrite O. exists d. split; [exact U|apply new_ok].
      * split; [eapply same_ok; [| |exact T]; reflexivity|]. split; [exact I|split; reflexivity].
    + injection H as <-. split; [eapply same_ok; [| |exact T]; reflexivity|]. split; [exact O|split; reflexivity].
    + discriminate H.
    + injection H as <-. split; [eapply same_ok; [| |exact T]; reflexivity|]. split; [|split; reflexivity]. unfold in_order. cbn [cl threads]. destruct (go s); exact O.
    + destruct (nth_error (threads s) k) as [[w p g]|] eqn:E; [|discriminate H]. destruct p as [|c p].
      * destruct w; try discriminate H. injection H as <-. split; [eapply same_ok; [| |exact T]; reflexivity|]. split; [exact O|split; reflexivity].
      * destruct (proj2 T k _ E) as (d & U & B & S). assert (H' : Some (put k (Thread w [] (g ++ c :: p)) s) = Some s') by (destruct w; exact H). injection H' as <-.
        split; [|split; [unfold in_order; change (cl (put k (Thread w [] (g ++ c :: p)) s)) with (cl s); rewrite C, (length_put _ _ _ _ E); exact O|split; reflexivity]].
        refine (put_ok _ _ _ _ d T E U _). split; [|exact S]. cbn [got pipe pc] in *. rewrite <- B, <- app_assoc. reflexivity.
    + discriminate H.
  - destruct (nth_error (threads s) i) as [t|] eqn:E; [|unfold worker_step in H; rewrite E in H; discriminate H]. destruct (proj2 T i t E) as (d & U & OK).
    assert (X : forall t, nth_error (threads s) i = Some t -> thread_ok d t) by (intros t' E'; rewrite E in E'; injection E' as <-; exact OK).
    destruct (worker_thread i s s' d H U X) as (t0 & t1 & E0 & E1 & E2 & OK1).
    split; [apply (same_ok (put i t1 s) s'); [exact E2|exact E1|]; exact (put_ok _ _ _ _ d T E U OK1)|].
    assert (LEN : length (threads s') = length (threads s)) by (rewrite E1; apply (length_put _ _ _ _ E)).
    assert (CM : room s' = room s /\ (cl s' = cl s \/ exists k, cl s = MWait k /\ cl s' = MBack k)).
    { clear - H. unfold worker_step in H. destruct (nth_error (threads s) i) as [[w p g]|]; [|discriminate H]. destruct w as [[|b l] ok|b l ok|b l ok|e|e| |]; try discriminate H.
      - injection H as <-. split; [reflexivity|left; reflexivity].
      - destruct (code b =? 200); injection H as <-; (split; [reflexivity|left; reflexivity]).
      - injection H as <-. split; [reflexivity|]. cbn. destruct (cl s); try (left; reflexivity). right. eexists. split; reflexivity.
      - destruct (Nat.ltb (length p) (room s)); [|discriminate H]. injection H as <-. split; [reflexivity|left; reflexivity].
      - injection H as <-. split; [reflexivity|left; reflexivity].
      - injection H as <-. split; [reflexivity|]. cbn. destruct (cl s); try (left; reflexivity). right. eexists. split; reflexivity.
      - injection H as <-. split; [reflexivity|left; reflexivity]. }
    destruct CM as [R CM]. split; [|split; assumption]. unfold in_order in *. destruct CM as [CM|(k & C1 & C2)]; [rewrite CM, LEN; exact O|rewrite C2, LEN; rewrite C1 in O; exact O].
  - destruct (cl s) eqn:C; try discriminate H. injection H as <-. split; [eapply same_ok; [| |exact T]; reflexivity|]. split; [|split; reflexivity]. unfold in_order in *. rewrite C in O. exact O.
  - destruct (cl s) eqn:C; try discriminate H. injection H as <-. split; [eapply same_ok; [| |exact T]; reflexivity|]. split; [|split; reflexivity]. unfold in_order in *. rewrite C in O. exact O.
Qed.
Lemma start_ok : forall l r, threads_ok (start l r) /\ in_order (start l r).
Proof. intros l r. split; [|reflexivity]. split; [cbn; lia|]. intros [|i] t H; discriminate H. Qed.
Lemma steps_ok : forall ls s s', steps ls s = Some s' -> threads_ok s -> in_order s -> threads_ok s' /\ in_order s' /\ urls s' = urls s /\ room s' = room s.
Proof.
  induction ls as [|l ls IH]; intros s s' H T O; [injection H as <-; repeat split; try assumption; apply T|]. cbn [steps] in H. destruct (step l s) as [s1|] eqn:E; [|discriminate H].
  destruct (every_step l s s1 E T O) as (T1 & O1 & U1 & R1). destruct (IH s1 s' H T1 O1) as (T2 & O2 & U2 & R2). split; [exact T2|]. split; [exact O2|]. split; [rewrite U2; exact U1|rewrite R2; exact R1].
Qed.
(** the bytes that arrive, in every run *)
Lemma bytes_arrive : forall us r ls s i d t, reached us r ls s -> nth_error us i = Some d -> nth_error (threads s) i = Some t ->
  starts_with (got t ++ pipe t) (arriving (blocks d)) /\ starts_with (arriving (blocks d)) (content d) /\ (pc t = WEnd -> got t ++ pipe t = arriving (blocks d)) /\
  (complete d = true -> arriving (blocks d) = content d).
Proof.
  intros us r ls s i d t H U E. destruct (start_ok us r) as [T O]. destruct (steps_ok ls _ s H T O) as (T' & _ & US & _). destruct (proj2 T' i t E) as (d' & U' & B & _).
  change (urls (start us r)) with us in US. rewrite US, U in U'. injection U' as <-. split; [exists (rest (pc t)); rewrite <- app_assoc; symmetry; exact B|]. split; [apply arriving_prefix|].
  split; [|apply complete_arriving]. intros P. rewrite P in B. cbn [rest] in B. rewrite app_nil_r in B. exact B.
Qed.
