(** The parser test: the counts (C64). *)
From Coq Require Import Sorting.Sorted Sorting.Permutation.
From Verif Require Import Base Text_Model Ptest_Model Ptest_Spec.
Local Open Scope N_scope.

Lemma beqb_iff : forall a b, beqb a b = true <-> a = b.
Proof. intros a b. unfold beqb. destruct (list_eq_dec N.eq_dec a b); split; congruence. Qed.
Lemma beqb_same : forall a, beqb a a = true.
Proof. intros a. apply beqb_iff. reflexivity. Qed.
Lemma before_irrefl : forall a, before a a = false.
Proof. induction a as [|x a IH]; cbn [before]; [reflexivity|]. rewrite N.eqb_refl. exact IH. Qed.
Lemma before_trans : forall a b c, before a b = true -> before b c = true -> before a c = true.
Proof.
  induction a as [|x a IH]; intros [|y b] [|z c] H K; cbn [before] in *; try discriminate; try reflexivity.
  destruct (x =? y) eqn:E; destruct (y =? z) eqn:F.
  - apply N.eqb_eq in E, F. subst. rewrite N.eqb_refl. exact (IH _ _ H K).
  - apply N.eqb_eq in E. subst. rewrite F. exact K.
  - apply N.eqb_eq in F. subst. rewrite E. exact H.
  - apply N.ltb_lt in H, K. replace (x =? z) with false by (symmetry; apply N.eqb_neq; lia). apply N.ltb_lt. lia.
Qed.
Lemma before_total : forall a b, before a b = false -> a <> b -> before b a = true.
Proof.
  induction a as [|x a IH]; intros [|y b] H D; cbn [before] in *; try discriminate; try reflexivity; [contradiction|].
  rewrite N.eqb_sym. destruct (x =? y) eqn:E; [apply N.eqb_eq in E; subst; apply IH; congruence|]. apply N.ltb_ge in H. apply N.eqb_neq in E. apply N.ltb_lt. lia.
Qed.
(** ** Maps *)
Definition key_lt (a b : bytes * nat) : Prop := before (fst a) (fst b) = true.
Definition sorted (m : list (bytes * nat)) : Prop := StronglySorted key_lt m.
Definition sum (m : list (bytes * nat)) : nat := list_sum (map snd m).
Lemma bump_in : forall k m r, In r (bump k m) -> fst r = k \/ In r m.
Proof.
  intros k. induction m as [|[j n] m IH]; intros r H; cbn [bump] in H; [destruct H as [<-|[]]; left; reflexivity|].
  destruct (beqb k j) eqn:E; [apply beqb_iff in E; subst; destruct H as [<-|H]; [left; reflexivity|right; right; exact H]|].
  destruct (before k j); [destruct H as [<-|H]; [left; reflexivity|right; exact H]|]. destruct H as [<-|H]; [right; left; reflexivity|]. destruct (IH r H) as [K|K]; [left; exact K|right; right; exact K].
Qed.
Lemma bump_sorted : forall k m, sorted m -> sorted (bump k m).
Proof.
  intros k. induction m as [|[j n] m IH]; intros H; cbn [bump]; [repeat constructor|]. inversion H as [|x l H1 H2]; subst.
  destruct (beqb k j) eqn:E; [constructor; [exact H1|exact H2]|]. assert (D : k <> j) by (intros ->; rewrite beqb_same in E; discriminate E).
  destruct (before k j) eqn:B.
  - constructor; [exact H|]. constructor; [exact B|]. eapply Forall_impl; [|exact H2]. intros r R. unfold key_lt in *. cbn [fst] in *. exact (before_trans _ _ _ B R).
  - constructor; [exact (IH H1)|]. apply Forall_forall. intros r R. destruct (bump_in k m r R) as [<-|R']; [unfold key_lt; cbn [fst]; apply before_total; [exact B|exact D]|].
    rewrite Forall_forall in H2. exact (H2 r R').
Qed.
Lemma bump_sum : forall k m, sum (bump k m) = S (sum m).
Proof.
  intros k. unfold sum, list_sum. induction m as [|[j n] m IH]; cbn [bump]; [reflexivity|]. destruct (beqb k j); [cbn [map snd fold_right]; lia|]. destruct (before k j); [reflexivity|].
  cbn [map snd fold_right]. rewrite IH. lia.
Qed.
Lemma bump_key : forall k m, In k (map fst (bump k m)).
Proof.
  intros k. induction m as [|[j n] m IH]; cbn [bump]; [left; reflexivity|]. destruct (beqb k j) eqn:E; [apply beqb_iff in E; left; symmetry; exact E|].
  destruct (before k j); [left; reflexivity|right; exact IH].
Qed.
Lemma bump_keys : forall k m j, In j (map fst m) -> In j (map fst (bump k m)).
Proof.
  intros k. induction m as [|[i n] m IH]; intros j H; [destruct H|]. cbn [bump]. destruct (beqb k i); [exact H|]. destruct (before k i); [right; exact H|]. destruct H as [H|H]; [left; exact H|right; exact (IH j H)].
Qed.
Lemma at_none : forall k m, ~ In k (map fst m) -> at_key k m = 0%nat.
Proof.
  intros k. induction m as [|[j n] m IH]; intros H; [reflexivity|]. cbn [at_key]. destruct (beqb k j) eqn:E; [apply beqb_iff in E; exfalso; apply H; left; symmetry; exact E|]. apply IH. intros K. apply H. right. exact K.
Qed.
Lemma bump_at : forall k m j, sorted m -> at_key j (bump k m) = ((if beqb j k then 1 else 0) + at_key j m)%nat.
Proof.
  intros k. induction m as [|[i n] m IH]; intros j H; [cbn [bump at_key]; destruct (beqb j k); reflexivity|]. inversion H as [|x l H1 H2]; subst. cbn [bump]. destruct (beqb k i) eqn:E.
  - apply beqb_iff in E. subst i. cbn [at_key]. destruct (beqb j k); reflexivity.
  - destruct (before k i) eqn:B.
    + change (at_key j ((k, 1%nat) :: (i, n) :: m)) with (if beqb j k then 1%nat else at_key j ((i, n) :: m)). destruct (beqb j k) eqn:F; [|reflexivity]. apply beqb_iff in F. subst j.
      rewrite at_none; [reflexivity|]. intros K. cbn [map fst] in K. destruct K as [K|K]; [subst i; rewrite before_irrefl in B; discriminate B|].
      apply in_map_iff in K. destruct K as ([a c] & K1 & K2). cbn [fst] in K1. subst a. rewrite Forall_forall in H2. specialize (H2 _ K2). unfold key_lt in H2. cbn [fst] in H2.
      pose proof (before_trans _ _ _ B H2) as Q. rewrite before_irrefl in Q. discriminate Q.
    + cbn [at_key]. rewrite (IH j H1). destruct (beqb j i) eqn:F; [|reflexivity]. apply beqb_iff in F. subst j. destruct (beqb i k) eqn:G; [apply beqb_iff in G; subst; rewrite beqb_same in E; discriminate E|reflexivity].
Qed.
Lemma at_in : forall m r, sorted m -> In r m -> at_key (fst r) m = snd r.
Proof.
  induction m as [|[j n] m IH]; intros r H I; [destruct I|]. inversion H as [|x l H1 H2]; subst. cbn [at_key]. destruct I as [<-|I]; [cbn [fst]; rewrite beqb_same; reflexivity|].
  destruct (beqb (fst r) j) eqn:E; [|exact (IH r H1 I)]. apply beqb_iff in E. rewrite Forall_forall in H2. specialize (H2 r I). unfold key_lt in H2. cbn [fst] in H2. rewrite E, before_irrefl in H2. discriminate H2.
Qed.
(** ** One unit *)
Definition fresh_for (q : request) (s : state) : bool := match previous s with [] => true | _ => negb (beqb (r_file q) (previous s)) end.
Definition counted_as (q : request) (s : state) : bytes := if fresh_for q s then match r_language q with Some l => l | None => [] end else unit_language s.
Definition failures (q : request) : nat := if same q then 0%nat else 1%nat.
Lemma entry_counts : forall color q s s' o, entry color q s = Ok (s', o) -> (fresh_for q s = true -> has_language q) ->
  previous s' = r_file q /\ unit_language s' = counted_as q s /\ total s' = S (total s) /\ ltotal s' = bump (counted_as q s) (ltotal s) /\
  failed s' = (failures q + failed s)%nat /\ misses s' = (if same q then misses s else bump (counted_as q s) (misses s)).
Proof.
  intros color q s s' o H L. unfold entry in H. fold (fresh_for q s) in H. unfold failures, counted_as. fold (same q) in H.
  assert (X : forall st : state, (fresh_for q s = true /\ r_language q = None) \/ ~ (fresh_for q s = true /\ r_language q = None)) by (intros _; destruct (fresh_for q s), (r_language q); [right|left|right|right]; try tauto; intros []; congruence).
  destruct (fresh_for q s) eqn:F; [destruct (r_language q) as [l|] eqn:R; [|exfalso; exact (L eq_refl R)]|].
  - destruct (same q) eqn:E; [injection H as <- _; repeat split|]. destruct (shown (r_xml q) (r_again q)) as [[a b]|]; [|discriminate H]. cbn [obind] in H.
    destruct (error_text color l _ (r_file q) 1 a b) as [e|]; [|discriminate H]. cbn [obind] in H. injection H as <- _. repeat split.
  - destruct (same q) eqn:E; [injection H as <- _; repeat split|]. destruct (shown (r_xml q) (r_again q)) as [[a b]|]; [|discriminate H]. cbn [obind] in H.
    destruct (error_text color (unit_language s) _ (r_file q) (S (count s)) a b) as [e|]; [|discriminate H]. cbn [obind] in H. injection H as <- _. repeat split.
Qed.
(** ** All units: the totals *)
Definition bounded (s : state) : Prop := sorted (ltotal s) /\ sorted (misses s) /\ sum (ltotal s) = total s /\ sum (misses s) = failed s /\ (forall k, In k (map fst (misses s)) -> In k (map fst (ltotal s))).
Lemma entries_totals : forall color qs s s' o, Forall has_language qs -> bounded s -> entries color qs s = Ok (s', o) ->
  bounded s' /\ total s' = (length qs + total s)%nat /\ failed s' = (number (fun q => negb (same q)) qs + failed s)%nat.
Proof.
  intros color. induction qs as [|q qs IH]; intros s s' o L B H; [injection H as <- _; split; [exact B|split; reflexivity]|]. cbn [entries] in H.
  destruct (entry color q s) as [[s1 o1]|] eqn:E; [|discriminate H]. cbn [obind fst snd] in H. destruct (entries color qs s1) as [[s2 o2]|] eqn:E2; [|discriminate H]. injection H as <- _.
  inversion L as [|x l L1 L2]; subst. destruct (entry_counts color q s s1 o1 E (fun _ => L1)) as (P1 & P2 & P3 & P4 & P5 & P6). destruct B as (B1 & B2 & B3 & B4 & B5).
  assert (B' : bounded s1).
  { unfold bounded. rewrite P3, P4, P5, P6. unfold failures. repeat split; [apply bump_sorted; exact B1|destruct (same q); [exact B2|apply bump_sorted; exact B2]|rewrite bump_sum, B3; reflexivity|
      destruct (same q); [exact B4|rewrite bump_sum, B4; reflexivity]|].
    intros k K. destruct (same q); [apply bump_keys; exact (B5 k K)|]. apply in_map_iff in K. destruct K as (r & K1 & K2). subst k. destruct (bump_in _ _ _ K2) as [R|R]; [rewrite R; apply bump_key|].
    apply bump_keys. apply B5. apply in_map. exact R. }
  destruct (IH s1 s2 o2 L2 B' E2) as (C1 & C2 & C3). split; [exact C1|]. split; [rewrite C2, P3; cbn [length]; lia|]. rewrite C3, P5. unfold number, failures. cbn [filter]. destruct (same q); cbn [negb length]; lia.
Qed.
(** ** Files of one language *)
Definition continues (s : state) (qs : list request) : Prop :=
  match qs with [] => True | q :: _ => fresh_for q s = false -> r_language q = Some (unit_language s) end.
Lemma uniform_language : forall q qs, uniform (q :: qs) -> has_language q.
Proof. intros q qs U. inversion U; subst; assumption. Qed.
Lemma entries_languages : forall color qs s s' o, uniform qs -> continues s qs -> sorted (ltotal s) -> sorted (misses s) -> entries color qs s = Ok (s', o) ->
  forall l, at_key l (ltotal s') = (number (in_language l) qs + at_key l (ltotal s))%nat /\
    at_key l (misses s') = (number (fun q => in_language l q && negb (same q)) qs + at_key l (misses s))%nat /\
    (In l (map fst (ltotal s')) <-> In l (map fst (ltotal s)) \/ exists q, In q qs /\ r_language q = Some l).
Proof.
  intros color. induction qs as [|q qs IH]; intros s s' o U C S1 S2 H l.
  - injection H as <- _. repeat split; auto. intros [K|(q & [] & _)]. exact K.
  - cbn [entries] in H. destruct (entry color q s) as [[s1 o1]|] eqn:E; [|discriminate H]. cbn [obind fst snd] in H. destruct (entries color qs s1) as [[s2 o2]|] eqn:E2; [|discriminate H]. injection H as <- _.
    pose proof (uniform_language q qs U) as L. destruct (entry_counts color q s s1 o1 E (fun _ => L)) as (P1 & P2 & P3 & P4 & P5 & P6).
    assert (K : r_language q = Some (counted_as q s)).
    { unfold counted_as. cbn [continues] in C. destruct (fresh_for q s); [|exact (C eq_refl)]. unfold has_language in L. destruct (r_language q); [reflexivity|contradiction]. }
    assert (U' : uniform qs) by (inversion U; subst; [constructor|assumption]).
    assert (C' : continues s1 qs).
    { destruct qs as [|r qs]; [exact I|]. cbn [continues]. intros F. inversion U as [| |x y z U1 U2 U3]; subst. rewrite P2, <- K. symmetry. apply U2. unfold fresh_for in F. rewrite P1 in F.
      destruct (r_file q) as [|c f]; [discriminate F|]. apply negb_false_iff in F. apply beqb_iff in F. symmetry. exact F. }
    assert (T1 : sorted (ltotal s1)) by (rewrite P4; apply bump_sorted; exact S1).
    assert (T2 : sorted (misses s1)) by (rewrite P6; destruct (same q); [exact S2|apply bump_sorted; exact S2]).
    destruct (IH s1 s2 o2 U' C' T1 T2 E2 l) as (D1 & D2 & D3).
    assert (G : in_language l q = beqb l (counted_as q s)).
    { unfold in_language. rewrite K. destruct (beqb (counted_as q s) l) eqn:X; destruct (beqb l (counted_as q s)) eqn:Y; try reflexivity; [apply beqb_iff in X; rewrite X, beqb_same in Y; discriminate Y|apply beqb_iff in Y; rewrite Y, beqb_same in X; discriminate X]. }
    split; [|split].
    + rewrite D1, P4, (bump_at _ _ _ S1). unfold number. cbn [filter]. rewrite G. destruct (beqb l (counted_as q s)); cbn [length]; lia.
    + rewrite D2, P6. unfold number. cbn [filter]. rewrite G. destruct (same q); cbn [negb]; rewrite ?andb_false_r, ?andb_true_r; [lia|]. rewrite (bump_at _ _ _ S2). destruct (beqb l (counted_as q s)); cbn [length]; lia.
    + rewrite D3, P4. split.
      * intros [J|(r & J1 & J2)]; [|right; exists r; split; [right; exact J1|exact J2]]. apply in_map_iff in J. destruct J as (r & <- & J2). destruct (bump_in _ _ _ J2) as [R|R]; [right; exists q; rewrite R; split; [left; reflexivity|exact K]|left; apply in_map; exact R].
      * intros [J|(r & [J1|J1] & J2)]; [left; apply bump_keys; exact J|subst r; left; rewrite K in J2; injection J2 as <-; apply bump_key|right; exists r; split; assumption].
Qed.
