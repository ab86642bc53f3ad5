(** Proofs for C25. *)
From Coq Require Import Permutation.
From Verif Require Import Base Queue_Model Queue_Spec.

(** * srcml_consume pushes exactly once *)
Definition pushes (es : list effect) : list Z :=
  concat (map (fun e => match e with Push z => [z] | _ => [] end) es).

Lemma failed_some x z : failed x = Some z -> x = Some z /\ z <> 0%Z.
Proof.
  unfold failed. destruct x as [y|]; [|discriminate]. destruct (Z.eqb_spec y STATUS_OK); [discriminate|].
  injection 1 as <-. auto.
Qed.
Lemma failed_none x : failed x = None -> match x with Some z => z | None => 0%Z end = 0%Z.
Proof. unfold failed. destruct x as [y|]; [|reflexivity]. destruct (Z.eqb_spec y STATUS_OK); [auto|discriminate]. Qed.

Lemma consume_pushes r : pushes (srcml_consume (r_status r) (r_answers r)) = [outcome_of r].
Proof.
  unfold srcml_consume, outcome_of. destruct r as [n st [u l f v p]]. cbn [r_status r_answers a_unit a_language a_filename a_version a_parse].
  destruct (Z.eqb_spec st 0) as [->|N]; [|reflexivity]. cbn [negb]. destruct u; [|reflexivity]. cbn [negb map find].
  assert (G : forall z, z <> 0%Z -> negb (Z.eqb z 0) = true) by (intros z H; apply negb_true_iff, Z.eqb_neq, H).
  destruct (failed l) as [z|] eqn:E1.
  { apply failed_some in E1. destruct E1 as [-> H]. rewrite (G z H). reflexivity. }
  rewrite (failed_none _ E1). cbn [Z.eqb negb].
  destruct (failed f) as [z|] eqn:E2.
  { apply failed_some in E2. destruct E2 as [-> H]. rewrite (G z H). reflexivity. }
  rewrite (failed_none _ E2). cbn [Z.eqb negb].
  destruct (failed v) as [z|] eqn:E3.
  { apply failed_some in E3. destruct E3 as [-> H]. rewrite (G z H). reflexivity. }
  rewrite (failed_none _ E3). cbn [Z.eqb negb].
  destruct p as [z|]; [|reflexivity].
  destruct (Z.eqb_spec z STATUS_INVALID_ARGUMENT) as [->|H]; [reflexivity|].
  cbn [option_map]. destruct (Z.eqb_spec z 2) as [E|_]; [destruct (H E)|]. destruct (Z.eqb_spec z 0) as [->|H0]; reflexivity.
Qed.

(** * The invariant *)
Definition pending (x : item * list effect) : list entry := map (fun z => (fst x, z)) (pushes (snd x)).
Definition final (t : item) : entry := (t, outcome_of (snd t)).
Definition inhand (s : sys) : list entry := match wr s with Writing e => [e] | _ => [] end.
Definition flight (s : sys) : list entry :=
  written s ++ inhand s ++ queue s ++ concat (map pending (busy s)) ++ map final (pool s).

Definition told (s : sys) : Prop :=
  phase s = Direct \/ phase s = Stopping \/ exists x, In x (busy s) /\ In Notify (snd x).
Definition blocked (c : conf) (s : sys) : Prop :=
  match pop_min (queue s) with
  | None => completed s = false
  | Some (e, _) => ordered c = true /\ pos e <> position s + 1
  end.
Definition late (p : main) : bool := match p with Stopping | Joining | Finished => true | _ => false end.
(** A running task notifies after its push. *)
Fixpoint follows (es : list effect) : Prop :=
  match es with [] => True | Push _ :: es => In Notify es /\ follows es | _ :: es => follows es end.

Record Inv (all : list req) (c : conf) (s : sys) : Prop := MkInv
  { i_script : script s = skipn (counter s) all;
    i_counter : counter s <= length all;
    i_flight : Permutation (flight s) (firstn (counter s) (expected all));
    i_position : position s = length (written s);
    i_order : ordered c = true -> map pos (written s ++ inhand s) = seq 1 (length (written s ++ inhand s));
    i_total : total s = length (filter (fun e => Z.eqb (snd e) 0) (written s));
    i_wake : wr s = Sleeping -> blocked c s \/ told s;
    i_follows : Forall (fun x => follows (snd x)) (busy s);
    i_late : late (phase s) = true -> pool s = [] /\ busy s = [] /\ completed s = true;
    i_done : script s <> [] -> phase s = Scheduling \/ phase s = Direct;
    i_early : completed s = true -> late (phase s) = true;
    i_returned : wr s = Returned -> queue s = [] /\ completed s = true;
    i_finished : phase s = Finished -> wr s = Returned }.

Lemma expected_length all : length (expected all) = length all.
Proof. unfold expected. rewrite !combine_length, map_length, seq_length. lia. Qed.
Lemma nth_combine {A B} (a : list A) (b : list B) n x y :
  nth_error a n = Some x -> nth_error b n = Some y -> nth_error (combine a b) n = Some (x, y).
Proof.
  revert b n. induction a as [|u a IH]; intros [|v b] [|n] H K; cbn in *; try discriminate.
  - injection H as ->. injection K as ->. reflexivity.
  - apply IH; assumption.
Qed.
Lemma nth_seq k n i : i < n -> nth_error (seq k n) i = Some (k + i).
Proof.
  revert k i. induction n as [|n IH]; intros k i H; [lia|]. destruct i as [|i]; cbn.
  - f_equal. lia.
  - rewrite IH by lia. f_equal. lia.
Qed.
Lemma expected_nth all n r : nth_error all n = Some r -> nth_error (expected all) n = Some ((S n, r), outcome_of r).
Proof.
  intros H. unfold expected. apply nth_combine.
  - apply nth_combine; [|exact H]. rewrite nth_seq; [reflexivity|]. apply nth_error_Some. rewrite H. discriminate.
  - apply map_nth_error, H.
Qed.
Lemma firstn_S {A} (l : list A) n x : nth_error l n = Some x -> firstn (S n) l = firstn n l ++ [x].
Proof.
  revert n. induction l as [|y l IH]; intros [|n] H; cbn in *; try discriminate.
  - injection H as ->. reflexivity.
  - f_equal. apply IH, H.
Qed.
Lemma skipn_cons {A} (l : list A) n x r : skipn n l = x :: r -> nth_error l n = Some x /\ skipn (S n) l = r /\ n < length l.
Proof.
  revert n. induction l as [|y l IH]; intros [|n] H; cbn in *; try discriminate.
  - injection H as -> ->. repeat split. lia.
  - destruct (IH n H) as [A1 [A2 A3]]. repeat split; [exact A1| |lia]. destruct l; [destruct n; discriminate H|exact A2].
Qed.
Lemma skipn_nil {A} (l : list A) n : skipn n l = [] -> length l <= n.
Proof.
  intros H. assert (L := skipn_length n l). rewrite H in L. cbn in L. lia.
Qed.

Lemma pop_min_perm l e r : pop_min l = Some (e, r) -> Permutation l (e :: r).
Proof.
  revert e r. induction l as [|x l IH]; intros e r H; cbn [pop_min] in H; [discriminate|].
  destruct (pop_min l) as [[m r']|] eqn:E.
  - destruct (pos m <? pos x).
    + injection H as <- <-. rewrite (IH m r' eq_refl). apply perm_swap.
    + injection H as <- <-. apply Permutation_refl.
  - injection H as <- <-. destruct l as [|y l]; [apply Permutation_refl|].
    cbn [pop_min] in E. destruct (pop_min l) as [[m r']|]; [destruct (pos m <? pos y)|]; discriminate E.
Qed.
Lemma pop_min_none l : pop_min l = None -> l = [].
Proof. destruct l as [|x l]; [reflexivity|]. cbn [pop_min]. destruct (pop_min l) as [[m r]|]; [destruct (pos m <? pos x)|]; discriminate. Qed.
Lemma pop_min_least l e r : pop_min l = Some (e, r) -> forall x, In x l -> pos e <= pos x.
Proof.
  revert e r. induction l as [|y l IH]; intros e r H x I; cbn [pop_min] in H; [discriminate|].
  destruct (pop_min l) as [[m r']|] eqn:E.
  - destruct (Nat.ltb_spec (pos m) (pos y)); injection H as <- <-.
    + destruct I as [->|I]; [lia|]. exact (IH m r' eq_refl x I).
    + destruct I as [->|I]; [lia|]. specialize (IH m r' eq_refl x I). lia.
  - apply pop_min_none in E. subst l. injection H as <- <-. destruct I as [->|[]]. lia.
Qed.

Lemma start_inv all c : Inv all c (start all).
Proof.
  constructor; cbn; try reflexivity; try lia; try discriminate; auto.
Qed.


Lemma notify_fields s : script (notify s) = script s /\ phase (notify s) = phase s /\ counter (notify s) = counter s /\
  pool (notify s) = pool s /\ busy (notify s) = busy s /\ queue (notify s) = queue s /\ completed (notify s) = completed s /\
  position (notify s) = position s /\ total (notify s) = total s /\ written (notify s) = written s /\ exited (notify s) = exited s /\
  inhand (notify s) = inhand s /\ wr (notify s) <> Sleeping /\ (wr (notify s) = Returned <-> wr s = Returned).
Proof.
  unfold notify, inhand. destruct s as [sc ph ct po bu qu co w ps to wn ex]. cbn.
  destruct w; cbn; repeat split; try discriminate; auto.
Qed.

(** Moving the parts of a task list about. *)
Lemma middle {A} (l : list A) i x : nth_error l i = Some x -> l = firstn i l ++ x :: skipn (S i) l.
Proof.
  revert i. induction l as [|y l IH]; intros [|i] H; cbn in *; try discriminate.
  - injection H as ->. reflexivity.
  - f_equal. apply IH, H.
Qed.
Lemma forall_others {A} (P : A -> Prop) (l : list A) i x y : nth_error l i = Some x -> Forall P l -> Forall P y ->
  Forall P (firstn i l ++ y ++ skipn (S i) l).
Proof.
  intros H F G. rewrite (middle l i x H) in F. apply Forall_app in F. destruct F as [F1 F2].
  apply Forall_app. split; [exact F1|]. apply Forall_app. split; [exact G|]. apply Forall_inv_tail in F2. exact F2.
Qed.
Lemma in_others {A} (l : list A) i x y z : nth_error l i = Some x -> In z l -> z = x \/ In z (firstn i l ++ y ++ skipn (S i) l).
Proof.
  intros H I. rewrite (middle l i x H) in I. apply in_app_or in I. destruct I as [I|[I|I]].
  - right. apply in_or_app. left. exact I.
  - left. auto.
  - right. apply in_or_app. right. apply in_or_app. right. exact I.
Qed.
