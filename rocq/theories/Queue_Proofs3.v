(** C25: results. *)
From Coq Require Import Permutation.
From Verif Require Import Base Queue_Model Queue_Spec Queue_Proofs Queue_Proofs2.

Lemma expected_pos all e : In e (expected all) -> nth_error (expected all) (pos e - 1) = Some e /\ 1 <= pos e.
Proof.
  intros I. apply In_nth_error in I. destruct I as [n N].
  assert (L : n < length all). { rewrite <- expected_length. apply nth_error_Some. intros F. rewrite F in N. discriminate N. }
  destruct (nth_error all n) as [r|] eqn:E; [|apply nth_error_None in E; lia].
  pose proof (expected_nth _ _ _ E) as Q. rewrite N in Q. injection Q as ->.
  unfold pos. cbn [fst]. rewrite Nat.sub_succ, Nat.sub_0_r. split; [exact N|lia].
Qed.
Lemma prefix_nth {A} (a : list A) : forall b, (forall i e, nth_error a i = Some e -> nth_error b i = Some e) -> prefix_of a b.
Proof.
  induction a as [|x a IH]; intros b H; [exists b; reflexivity|].
  pose proof (H 0 x eq_refl) as H0. destruct b as [|y b]; [discriminate H0|]. injection H0 as ->.
  destruct (IH b (fun i e => H (S i) e)) as [r R]. exists r. cbn. rewrite R. reflexivity.
Qed.
Lemma prefix_app {A} (a b c : list A) : prefix_of (a ++ b) c -> prefix_of a c.
Proof. intros [r R]. exists (b ++ r). rewrite app_assoc. exact R. Qed.
Lemma in_firstn {A} n (l : list A) x : In x (firstn n l) -> In x l.
Proof. intros H. rewrite <- (firstn_skipn n l). apply in_or_app. left. exact H. Qed.

Lemma flight_expected all c s e : Inv all c s -> In e (flight s) -> In e (expected all).
Proof. intros I H. apply (in_firstn (counter s)). exact (Permutation_in _ (i_flight _ _ _ I) H). Qed.

Lemma ordered_prefix all c s : Inv all c s -> ordered c = true -> prefix_of (written s ++ inhand s) (expected all).
Proof.
  intros I O. apply prefix_nth. intros i e N.
  assert (In e (expected all)) as X.
  { apply (flight_expected _ _ _ _ I). unfold flight. apply nth_error_In in N. rewrite app_assoc. apply in_or_app. left. exact N. }
  apply expected_pos in X. destruct X as [X _].
  assert (P : pos e = S i).
  { pose proof (map_nth_error pos i _ N) as M. rewrite (i_order _ _ _ I O) in M.
    assert (i < length (written s ++ inhand s)) as L by (apply nth_error_Some; rewrite N; discriminate).
    rewrite nth_seq in M by exact L. injection M as <-. reflexivity. }
  rewrite P, Nat.sub_succ, Nat.sub_0_r in X. exact X.
Qed.

Lemma prefix_full {A} (a b : list A) : prefix_of a b -> length a = length b -> a = b.
Proof. intros [r <-] L. rewrite app_length in L. destruct r; [rewrite app_nil_r; reflexivity|cbn in L; lia]. Qed.

Lemma finished_flight all c s : Inv all c s -> phase s = Finished -> flight s = written s /\ counter s = length all.
Proof.
  intros I P. assert (L : late (phase s) = true) by (rewrite P; reflexivity).
  destruct (i_late _ _ _ I L) as [A1 [A2 _]]. pose proof (i_finished _ _ _ I P) as W. destruct (i_returned _ _ _ I W) as [Q _].
  split.
  - unfold flight, inhand. rewrite W, A1, A2, Q. cbn. rewrite !app_nil_r. reflexivity.
  - assert (S : script s = []).
    { destruct (script s) eqn:Z; [reflexivity|]. destruct (i_done _ _ _ I) as [F|F]; [rewrite Z; discriminate|rewrite F in P; discriminate P..]. }
    pose proof (i_script _ _ _ I) as K. rewrite S in K. symmetry in K. apply skipn_nil in K. pose proof (i_counter _ _ _ I). lia.
Qed.

Lemma expected_successes all : length (filter (fun e => Z.eqb (snd e) 0) (expected all)) = successes all.
Proof.
  unfold successes, expected. generalize 1 as k. induction all as [|r all IH]; intros k; [reflexivity|].
  cbn [length seq combine map filter snd]. destruct (Z.eqb (outcome_of r) 0); cbn [length]; rewrite IH; reflexivity.
Qed.
Lemma filter_perm {A} (f : A -> bool) l l' : Permutation l l' -> length (filter f l) = length (filter f l').
Proof.
  induction 1 as [|x l l' P IH|x y l|l l' l'' P1 IH1 P2 IH2]; cbn.
  - reflexivity.
  - destruct (f x); cbn; rewrite IH; reflexivity.
  - destruct (f x), (f y); reflexivity.
  - rewrite IH1. exact IH2.
Qed.

Lemma write_prefix inputs c ls s : 0 < threads c -> ordered c = true -> steps c ls (start inputs) = Some s ->
  prefix_of (written s) (expected inputs) /\ total s = length (filter (fun e => Z.eqb (snd e) 0) (written s)).
Proof.
  intros T O E. pose proof (steps_inv inputs c ls _ _ T (start_inv inputs c) E) as I. split.
  - apply (prefix_app _ (inhand s)). apply (ordered_prefix _ c); assumption.
  - apply (i_total _ _ _ I).
Qed.

Lemma write_all inputs c ls s : 0 < threads c -> steps c ls (start inputs) = Some s -> over s ->
  Permutation (written s) (expected inputs) /\ (ordered c = true -> written s = expected inputs) /\ total s = successes inputs.
Proof.
  intros T E F. pose proof (steps_inv inputs c ls _ _ T (start_inv inputs c) E) as I.
  destruct (finished_flight _ _ _ I F) as [A B]. pose proof (i_flight _ _ _ I) as P.
  rewrite A, B, <- expected_length, firstn_all in P. split; [exact P|]. split.
  - intros O. apply prefix_full; [|apply Permutation_length, P].
    apply (prefix_app _ (inhand s)). apply (ordered_prefix _ c); assumption.
  - rewrite (i_total _ _ _ I), <- expected_successes. apply filter_perm, P.
Qed.

(** * No deadlock *)
Lemma positions all n : n <= length all -> map pos (firstn n (expected all)) = seq 1 n.
Proof.
  induction n as [|n IH]; intros L; [reflexivity|].
  destruct (nth_error all n) as [r|] eqn:E; [|apply nth_error_None in E; lia].
  rewrite (firstn_S _ _ _ (expected_nth _ _ _ E)), map_app, IH by lia. rewrite seq_snoc. reflexivity.
Qed.
Lemma next_is_queued all c s e rest : Inv all c s -> ordered c = true -> pool s = [] -> busy s = [] -> wr s = Sleeping ->
  pop_min (queue s) = Some (e, rest) -> pos e = position s + 1.
Proof.
  intros I O Po Bu W Q.
  assert (H0 : inhand s = []) by (unfold inhand; rewrite W; reflexivity).
  assert (Fl : flight s = written s ++ queue s) by (unfold flight; rewrite H0, Po, Bu; cbn; rewrite app_nil_r; reflexivity).
  pose proof (i_flight _ _ _ I) as P. rewrite Fl in P.
  pose proof (i_order _ _ _ I O) as R. rewrite H0, app_nil_r in R. rewrite (i_position _ _ _ I).
  assert (Ie : In e (queue s)) by (apply (Permutation_in _ (Permutation_sym (pop_min_perm _ _ _ Q))); left; reflexivity).
  set (k := length (written s)) in *.
  assert (Pp : Permutation (map pos (written s) ++ map pos (queue s)) (seq 1 (counter s))).
  { rewrite <- map_app. rewrite <- (positions all) by apply (i_counter _ _ _ I). apply Permutation_map, P. }
  rewrite R in Pp.
  assert (ND : NoDup (seq 1 k ++ map pos (queue s))) by (apply (Permutation_NoDup (Permutation_sym Pp)), seq_NoDup).
  assert (Lo : k < pos e).
  { destruct (le_lt_dec (pos e) k) as [H|H]; [|exact H]. exfalso.
    assert (In (pos e) (seq 1 k)) as X.
    { apply in_seq. assert (In (pos e) (seq 1 (counter s))) as Y.
      { apply (Permutation_in _ Pp). apply in_or_app. right. apply in_map, Ie. }
      apply in_seq in Y. lia. }
    apply (in_map pos) in Ie. clear - ND X Ie. revert X ND. generalize (seq 1 k) as l. induction l as [|y l IH]; intros X ND; [destruct X|].
    cbn in ND. inversion ND as [|? ? N1 N2]. subst. destruct X as [->|X]; [apply N1, in_or_app; right; exact Ie|exact (IH X N2)]. }
  assert (Len : counter s = k + length (queue s)).
  { apply Permutation_length in Pp. rewrite app_length, map_length, !seq_length in Pp. lia. }
  assert (In (k + 1) (map pos (queue s))) as Y.
  { assert (In (k + 1) (seq 1 (counter s))) as Z.
    { apply in_seq. destruct (queue s); [destruct Ie|]. cbn in Len. lia. }
    apply (Permutation_in _ (Permutation_sym Pp)) in Z. apply in_app_or in Z. destruct Z as [Z|Z]; [|exact Z].
    apply in_seq in Z. lia. }
  apply in_map_iff in Y. destruct Y as [x [X1 X2]]. pose proof (pop_min_least _ _ _ Q x X2). lia.
Qed.

Lemma no_deadlock inputs c ls s : 0 < threads c -> steps c ls (start inputs) = Some s -> ~ over s -> exited s = false ->
  exists l s', l <> Spurious /\ step c l s = Some s'.
Proof.
  intros T E F X. pose proof (steps_inv inputs c ls _ _ T (start_inv inputs c) E) as I. unfold step. rewrite X.
  destruct (phase s) eqn:P.
  - exists Main. unfold main_step. rewrite P. destruct (script s); eexists; split; [discriminate|reflexivity|discriminate|reflexivity].
  - exists Main. unfold main_step. rewrite P. eexists; split; [discriminate|reflexivity].
  - destruct (busy s) as [|[t es] b] eqn:B.
    + destruct (pool s) as [|t p] eqn:Po.
      * exists Main. unfold main_step. rewrite P, B, Po. eexists; split; [discriminate|reflexivity].
      * exists Take. unfold take_step. rewrite Po, B. cbn [length]. destruct (Nat.ltb_spec 0 (threads c)); [|lia].
        eexists; split; [discriminate|reflexivity].
    + exists (Task 0). unfold task_step. rewrite B. cbn [nth_error]. destruct es as [|[]]; eexists; (split; [discriminate|reflexivity]).
  - exists Main. unfold main_step. rewrite P. eexists; split; [discriminate|reflexivity].
  - assert (L : late (phase s) = true) by (rewrite P; reflexivity). destruct (i_late _ _ _ I L) as [A1 [A2 A3]].
    destruct (wr s) as [| |e|] eqn:W.
    + exists Writer. unfold writer_step. rewrite W. destruct (pop_min (queue s)) as [[e r]|].
      * destruct (ordered c && _); eexists; (split; [discriminate|reflexivity]).
      * eexists; split; [discriminate|reflexivity].
    + exfalso. destruct (i_wake _ _ _ I W) as [H|[H|[H|[x [H _]]]]].
      * unfold blocked in H. destruct (pop_min (queue s)) as [[e r]|] eqn:Q.
        -- destruct H as [O H]. apply H. apply (next_is_queued inputs c s e r); assumption.
        -- rewrite H in A3. discriminate A3.
      * rewrite H in P. discriminate P.
      * rewrite H in P. discriminate P.
      * rewrite A2 in H. destruct H.
    + exists Writer. unfold writer_step. rewrite W. eexists; split; [discriminate|reflexivity].
    + exists Main. unfold main_step. rewrite P, W. eexists; split; [discriminate|reflexivity].
  - destruct (F P).
Qed.

(** * Termination *)
Definition e_weight (e : effect) : nat := match e with Push _ => 3 | Notify => 2 | Exit => 1 end.
Definition es_weight (es : list effect) : nat := list_sum (map e_weight es).
Definition p_weight (p : main) : nat :=
  match p with Scheduling => 5 | Direct => 7 | Waiting => 4 | Stopping => 3 | Joining => 1 | Finished => 0 end.
Definition w_weight (w : writer) : nat := match w with Checking => 1 | Writing _ => 2 | _ => 0 end.
Definition b_weight (b : list (item * list effect)) : nat := list_sum (map (fun x => 1 + es_weight (snd x)) b).
Definition weight (s : sys) : nat :=
  9 * length (script s) + p_weight (phase s) + 8 * length (pool s) + b_weight (busy s) + 2 * length (queue s) +
  w_weight (wr s) + (if exited s then 0 else 1).

Lemma list_sum_app' a b : list_sum (a ++ b) = list_sum a + list_sum b.
Proof. apply list_sum_app. Qed.
Lemma b_weight_app a b : b_weight (a ++ b) = b_weight a + b_weight b.
Proof. unfold b_weight. rewrite map_app. apply list_sum_app'. Qed.
Lemma b_weight_cons x b : b_weight (x :: b) = 1 + es_weight (snd x) + b_weight b.
Proof. reflexivity. Qed.
Lemma es_weight_cons e es : es_weight (e :: es) = e_weight e + es_weight es.
Proof. reflexivity. Qed.
Lemma consume_weight st a : es_weight (srcml_consume st a) <= 6.
Proof.
  unfold srcml_consume. repeat match goal with |- context [match ?x with _ => _ end] => destruct x end; cbn; lia.
Qed.
Lemma notify_weight s : weight (notify s) <= weight s + 1.
Proof. unfold notify, weight. destruct s as [sc ph ct po bu qu co w ps to wn ex]. cbn [wr]. destruct w; fields; cbn [w_weight]; lia. Qed.
Lemma b_weight_middle b i x : nth_error b i = Some x -> b_weight b = b_weight (firstn i b) + (1 + es_weight (snd x)) + b_weight (skipn (S i) b).
Proof.
  intros N. transitivity (b_weight (firstn i b ++ x :: skipn (S i) b)); [f_equal; apply middle, N|].
  rewrite b_weight_app, b_weight_cons. lia.
Qed.

Lemma step_weight c l s s' : step c l s = Some s' ->
  match l with Spurious => weight s' <= weight s + 1 | _ => weight s' < weight s end.
Proof.
  unfold step. destruct (exited s) eqn:X; [discriminate|]. destruct l; intros E.
  - unfold main_step in E. destruct (phase s) eqn:P.
    + destruct (script s) as [|r rest] eqn:S; injection E as <-.
      * unfold weight. fields. rewrite X, P, S. cbn [p_weight length]. lia.
      * unfold main_schedule. destruct (negb _); unfold weight; fields; rewrite X, P, S, app_length; cbn [p_weight length]; lia.
    + injection E as <-. pose proof (notify_weight s) as Q. destruct (notify_fields s) as (N1 & N2 & N3 & N4 & N5 & N6 & N7 & N8 & N9 & N10 & N11 & N12 & N13 & N14).
      unfold weight in *. fields. rewrite N2, N1, P in Q. rewrite P. cbn [p_weight] in *. lia.
    + destruct (is_empty (busy s) && _); [|discriminate E]. injection E as <-.
      unfold weight. fields. rewrite X, P. cbn [p_weight length]. lia.
    + injection E as <-. pose proof (notify_weight s) as Q. destruct (notify_fields s) as (N1 & N2 & N3 & N4 & N5 & N6 & N7 & N8 & N9 & N10 & N11 & N12 & N13 & N14).
      unfold weight in *. fields. rewrite N2, N1, P in Q. rewrite P. cbn [p_weight] in *. lia.
    + destruct (wr s); try discriminate E. injection E as <-. unfold weight. fields. rewrite P. cbn [p_weight]. lia.
    + discriminate E.
  - unfold take_step in E. destruct (pool s) as [|t rest] eqn:P; [discriminate E|]. destruct (_ <? _); [|discriminate E]. injection E as <-.
    unfold weight. fields. rewrite P, b_weight_app, b_weight_cons. cbn [snd length].
    pose proof (consume_weight (r_status (snd t)) (r_answers (snd t))). change (b_weight []) with 0. lia.
  - unfold task_step in E. destruct (nth_error (busy s) i) as [[t es]|] eqn:N; [|discriminate E].
    pose proof (b_weight_middle _ _ _ N) as M. cbn [snd] in M.
    destruct es as [|[st| |] es].
    + injection E as <-. unfold weight. fields. rewrite b_weight_app. change (match busy s with [] => [] | _ :: l => skipn i l end) with (skipn (S i) (busy s)). lia.
    + injection E as <-. unfold weight. fields. rewrite b_weight_app, b_weight_cons, app_length. cbn [snd length].
      rewrite es_weight_cons in M. cbn [e_weight] in M. change (match busy s with [] => [] | _ :: l => skipn i l end) with (skipn (S i) (busy s)). lia.
    + injection E as <-. set (s1 := set_pool _ _ _). pose proof (notify_weight s1) as Q.
      assert (weight s1 + 2 <= weight s); [|lia]. unfold s1, weight. fields. rewrite b_weight_app, b_weight_cons. cbn [snd].
      rewrite es_weight_cons in M. cbn [e_weight] in M. change (match busy s with [] => [] | _ :: l => skipn i l end) with (skipn (S i) (busy s)). lia.
    + injection E as <-. unfold weight. fields. rewrite X. lia.
  - unfold writer_step in E. destruct (wr s) as [| |e|] eqn:W; try discriminate E.
    + destruct (pop_min (queue s)) as [[e rest]|] eqn:Q.
      * destruct (_ && _); injection E as <-; unfold weight; fields; rewrite W; cbn [w_weight]; [lia|].
        apply pop_min_perm, Permutation_length in Q. rewrite Q. cbn [length]. lia.
      * injection E as <-. unfold weight. fields. rewrite W. destruct (completed s); cbn [w_weight]; lia.
    + injection E as <-. unfold weight. fields. rewrite W. cbn [w_weight]. lia.
  - destruct (wr s) eqn:W; try discriminate E. injection E as <-. unfold weight. fields. rewrite W. cbn [w_weight]. lia.
Qed.

Lemma steps_weight c ls : forall s s', steps c ls s = Some s' -> length ls + weight s' <= weight s + 2 * spurious ls.
Proof.
  induction ls as [|l ls IH]; intros s s' E; cbn [steps] in E.
  - injection E as <-. cbn. lia.
  - destruct (step c l s) as [s1|] eqn:Q; [|discriminate E]. specialize (IH _ _ E). apply step_weight in Q.
    unfold spurious in *. cbn [length filter]. destruct l; cbn [length]; lia.
Qed.
Lemma run_length inputs c ls s : steps c ls (start inputs) = Some s -> length ls <= 9 * length inputs + 7 + 2 * spurious ls.
Proof.
  intros E. apply steps_weight in E. assert (W : weight (start inputs) = 9 * length inputs + 7).
  { unfold weight, start. fields. cbn [p_weight w_weight length]. change (b_weight []) with 0. lia. }
  lia.
Qed.

Lemma steps_app c a b s : steps c (a ++ b) s = match steps c a s with Some s' => steps c b s' | None => None end.
Proof. revert s. induction a as [|l a IH]; intros s; cbn; [reflexivity|]. destruct (step c l s); [apply IH|reflexivity]. Qed.

Lemma can_finish inputs c ls s : 0 < threads c -> steps c ls (start inputs) = Some s ->
  exists ls' s', steps c ls' s = Some s' /\ (over s' \/ exited s' = true).
Proof.
  intros T E. remember (weight s) as w eqn:Hw. revert ls s E Hw. induction w as [w IH] using lt_wf_ind. intros ls s E Hw.
  destruct (exited s) eqn:X; [exists [], s; split; [reflexivity|right; exact X]|].
  destruct (phase s) eqn:P.
  6: { exists [], s. split; [reflexivity|left; exact P]. }
  all: assert (NO : ~ over s) by (unfold over; rewrite P; discriminate);
    destruct (no_deadlock _ _ _ _ T E NO X) as [l [s1 [L S1]]];
    pose proof (step_weight _ _ _ _ S1) as D;
    assert (D' : weight s1 < weight s) by (destruct l; try exact D; destruct (L eq_refl));
    subst w;
    destruct (IH (weight s1) D' (ls ++ [l]) s1) as [ls' [s' [R1 R2]]];
    [rewrite steps_app, E; cbn [steps]; rewrite S1; reflexivity | reflexivity |];
    exists (l :: ls'), s'; split; [cbn [steps]; rewrite S1; exact R1|exact R2].
Qed.
