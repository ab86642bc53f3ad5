(** The parser test: the text (C64). *)
From Coq Require Import Sorting.Sorted Sorting.Permutation.
From Verif Require Import Base Text_Model Ptest_Model Ptest_Spec Ptest_Proofs Ptest_Proofs2.
Local Open Scope N_scope.

(** ** Tables *)
Definition table_of (s : state) : table := map (fun r => (fst r, at_key (fst r) (misses s), snd r)) (ltotal s).
Lemma sum_over : forall m, sorted m -> forall K, sorted K -> (forall k, In k (map fst m) -> In k (map fst K)) -> list_sum (map (fun r => at_key (fst r) m) K) = sum m.
Proof.
  induction m as [|[j n] m IH]; intros S1 K S2 H.
  - unfold sum. cbn [map]. clear. induction K as [|k K IH]; [reflexivity|]. cbn [map at_key]. change (list_sum (0%nat :: map (fun _ : bytes * nat => 0%nat) K)) with (0 + list_sum (map (fun _ : bytes * nat => 0%nat) K))%nat. exact IH.
  - inversion S1 as [|x l P1 P2]; subst.
    assert (Z : at_key j m = 0%nat).
    { apply at_none. intros Q. apply in_map_iff in Q. destruct Q as ([a c] & Q1 & Q2). cbn [fst] in Q1. subst a. rewrite Forall_forall in P2. specialize (P2 _ Q2). unfold key_lt in P2. cbn [fst] in P2. rewrite before_irrefl in P2. discriminate P2. }
    assert (E : list_sum (map (fun r => at_key (fst r) ((j, n) :: m)) K) = (list_sum (map (fun r => if beqb (fst r) j then n else 0%nat) K) + list_sum (map (fun r => at_key (fst r) m) K))%nat).
    { clear - Z. induction K as [|k K IH]; [reflexivity|]. unfold list_sum in *. cbn [map fold_right]. rewrite IH. cbn [at_key]. destruct (beqb (fst k) j) eqn:E; [apply beqb_iff in E; rewrite E, Z; lia|lia]. }
    rewrite E, (IH P1 K S2); [|intros k Q; apply H; right; exact Q].
    assert (G : list_sum (map (fun r : bytes * nat => if beqb (fst r) j then n else 0%nat) K) = n); [|rewrite G; unfold sum, list_sum; cbn [map snd fold_right]; reflexivity].
    specialize (H j (or_introl eq_refl)). clear - S2 H. unfold list_sum. induction K as [|[k v] K IH]; [destruct H|]. inversion S2 as [|x l P1 P2]; subst. cbn [map fold_right fst]. destruct (beqb k j) eqn:E.
    + apply beqb_iff in E. subst k. assert (A : fold_right Nat.add 0%nat (map (fun r : bytes * nat => if beqb (fst r) j then n else 0%nat) K) = 0%nat); [|rewrite A; lia].
      clear - P2. induction K as [|[k v'] K IH]; [reflexivity|]. inversion P2 as [|y z Q1 Q2]; subst. cbn [map fold_right fst]. rewrite (IH Q2). unfold key_lt in Q1. cbn [fst] in Q1.
      destruct (beqb k j) eqn:E; [apply beqb_iff in E; subst; rewrite before_irrefl in Q1; discriminate Q1|reflexivity].
    + rewrite IH; [reflexivity|exact P1|]. destruct H as [H|H]; [cbn [fst] in H; subst; rewrite beqb_same in E; discriminate E|exact H].
Qed.
Lemma table_order : forall s, sorted (ltotal s) -> in_order (table_of s).
Proof.
  intros s H. unfold in_order, table_of. induction H as [|r m H IH F]; cbn [map]; [constructor|]. constructor; [exact IH|]. apply Forall_map. eapply Forall_impl; [|exact F]. intros x X. exact X.
Qed.
Lemma report_text : forall color percent s, total s <> 0%nat ->
  report color percent s = errors_text (errors s) ++ summary_text (sort (summary s)) ++ counts_text color percent (failed s) (total s) (table_of s).
Proof.
  intros color percent s T. unfold report, errors_text, summary_text, counts_text, table_of. rewrite map_map.
  assert (M : map (fun '(l, n) => txt "        " ++ row l percent (at_key l (misses s)) n) (ltotal s) =
    map (fun x : bytes * nat => txt "        " ++ row (t_language (fst x, at_key (fst x) (misses s), snd x)) percent (t_failed (fst x, at_key (fst x) (misses s), snd x)) (t_total (fst x, at_key (fst x) (misses s), snd x))) (ltotal s))
    by (apply map_ext; intros [l k]; reflexivity).
  rewrite <- M. destruct (total s) as [|n]; [contradiction|]. rewrite !app_assoc. reflexivity.
Qed.
Lemma nothing_bounded : bounded nothing.
Proof. unfold bounded, sorted. repeat split; try constructor. intros k K. exact K. Qed.
Lemma all_counts : forall color percent qs out, Forall has_language qs -> qs <> [] -> parser_test color percent qs = Ok out ->
  exists body t, out = body ++ counts_text color percent (number (fun q => negb (same q)) qs) (length qs) t /\ in_order t /\
    list_sum (map t_total t) = length qs /\ list_sum (map t_failed t) = number (fun q => negb (same q)) qs.
Proof.
  intros color percent qs out L N H. unfold parser_test in H. destruct (entries color qs nothing) as [[s o]|] eqn:E; [|discriminate H]. cbn [obind] in H. injection H as <-.
  destruct (entries_totals color qs nothing s o L nothing_bounded E) as ((B1 & B2 & B3 & B4 & B5) & T & F). cbn [total failed nothing] in T, F. rewrite Nat.add_0_r in T, F.
  rewrite report_text by (rewrite T; destruct qs; [contradiction|discriminate]). rewrite T, F. eexists _, (table_of s). split; [rewrite !app_assoc; reflexivity|]. split; [exact (table_order s B1)|].
  unfold table_of. rewrite !map_map. cbn [t_total t_failed fst snd]. split.
  - change (list_sum (map (fun x : bytes * nat => snd x) (ltotal s)) = length qs). rewrite <- T, <- B3. reflexivity.
  - rewrite <- F, <- B4. exact (sum_over _ B2 _ B1 B5).
Qed.
Lemma languages_count : forall color percent qs out, uniform qs -> qs <> [] -> parser_test color percent qs = Ok out ->
  exists body t, out = body ++ counts_text color percent (number (fun q => negb (same q)) qs) (length qs) t /\ in_order t /\ counts qs t.
Proof.
  intros color percent qs out U N H. unfold parser_test in H. destruct (entries color qs nothing) as [[s o]|] eqn:E; [|discriminate H]. cbn [obind] in H. injection H as <-.
  assert (L : Forall has_language qs) by (clear - U; induction U as [|q H|q r l H Q U IH]; [constructor|constructor; [exact H|constructor]|constructor; [exact H|exact IH]]).
  destruct (entries_totals color qs nothing s o L nothing_bounded E) as ((B1 & B2 & B3 & B4 & B5) & T & F). cbn [total failed nothing] in T, F. rewrite Nat.add_0_r in T, F.
  assert (C : continues nothing qs) by (destruct qs; [exact I|intros K; discriminate K]).
  pose proof (entries_languages color qs nothing s o U C ltac:(constructor) ltac:(constructor) E) as D. cbn [ltotal misses nothing at_key] in D.
  rewrite report_text by (rewrite T; destruct qs; [contradiction|discriminate]). rewrite T, F. eexists _, (table_of s). split; [rewrite !app_assoc; reflexivity|]. split; [exact (table_order s B1)|].
  split.
  - intros r R. apply in_map_iff in R. destruct R as (k & <- & K). cbn [t_total t_failed t_language fst snd]. destruct (D (fst k)) as (D1 & D2 & D3). rewrite Nat.add_0_r in D1, D2. rewrite <- (at_in _ _ B1 K), <- D1, <- D2. split; [reflexivity|]. split; [reflexivity|].
    rewrite D1. destruct (proj1 D3 (in_map fst _ _ K)) as [[]|(q & Q1 & Q2)]. unfold number. assert (I : In q (filter (in_language (fst k)) qs)) by (apply filter_In; split; [exact Q1|]; unfold in_language; rewrite Q2; apply beqb_same).
    destruct (filter (in_language (fst k)) qs); [destruct I|discriminate].
  - intros q l Q1 Q2. destruct (D l) as (_ & _ & D3). unfold table_of. rewrite map_map. cbn [t_language fst]. apply D3. right. exists q. split; assumption.
Qed.
(** ** Sorting *)
Lemma insert_perm : forall x l, Permutation (x :: l) (insert x l).
Proof. intros x. induction l as [|y l IH]; cbn [insert]; [reflexivity|]. destruct (before y x); [|reflexivity]. rewrite perm_swap. constructor. exact IH. Qed.
Lemma sort_perm : forall l, Permutation l (sort l).
Proof. induction l as [|x l IH]; [constructor|]. unfold sort. cbn [fold_right]. rewrite <- insert_perm. constructor. exact IH. Qed.
Lemma insert_sorted : forall x l, sorted_lines l -> sorted_lines (insert x l).
Proof.
  intros x. induction l as [|y l IH]; intros H; cbn [insert]; [repeat constructor|]. inversion H as [|z m H1 H2]; subst. destruct (before y x) eqn:B.
  - constructor; [exact (IH H1)|]. apply Forall_forall. intros z Z. apply (Permutation_in _ (Permutation_sym (insert_perm x l))) in Z. destruct Z as [<-|Z].
    + destruct (before x y) eqn:X; [|reflexivity]. pose proof (before_trans _ _ _ B X) as Q. rewrite before_irrefl in Q. discriminate Q.
    + rewrite Forall_forall in H2. exact (H2 z Z).
  - constructor; [exact H|]. constructor; [exact B|]. eapply Forall_impl; [|exact H2]. intros z Z. destruct (before z x) eqn:X; [|reflexivity].
    destruct (list_eq_dec N.eq_dec x y) as [<-|D]; [congruence|]. pose proof (before_trans _ _ _ X (before_total y x B ltac:(congruence))) as Q. congruence.
Qed.
Lemma sort_sorted : forall l, sorted_lines (sort l).
Proof. induction l as [|x l IH]; [constructor|]. apply insert_sorted. exact IH. Qed.
