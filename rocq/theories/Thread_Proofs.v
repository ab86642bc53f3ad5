(** Positions of the elements a thread writes: C37. *)
From Verif Require Import Base Text_Model Text_Spec Text_Proofs Thread_Model Thread_Spec.
Local Open Scope N_scope.

Lemma extent : forall p, no_extent p = true <-> backwards p.
Proof.
  intros p. unfold no_extent, backwards. rewrite orb_true_iff, andb_true_iff, !N.ltb_lt, N.eqb_eq. reflexivity.
Qed.
Lemma extent_not : forall p, no_extent p = false -> p_line p < p_endline p \/ (p_endline p = p_line p /\ p_col p <= p_endcol p).
Proof.
  intros p H. unfold no_extent in H. apply orb_false_iff in H as (A & B). apply N.ltb_ge in A. destruct (N.eq_dec (p_endline p) (p_line p)) as [E|E]; [|lia].
  rewrite E, N.eqb_refl in B. cbn [andb] in B. apply N.ltb_ge in B. lia.
Qed.
(** what the thread's variables hold after the elements [l] *)
Definition state_after (tl : tls) (l : list started) : Prop :=
  pos_buffer (tl_buffer tl) /\ tl_isposition tl = option_map (fun x => op_position (st_output x)) (hd_error l) /\
  (tl_isposition tl = Some true -> tl_prefix tl = option_map (fun x => op_prefix (st_output x)) (find has_position l)) /\
  (tl_isposition tl <> Some true -> tl_prefix tl = None).
Lemma find_snoc : forall A (f : A -> bool) l x, find f (l ++ [x]) = match find f l with Some y => Some y | None => if f x then Some x else None end.
Proof. induction l as [|y l IH]; intros x; cbn; [reflexivity|]. destruct (f y); [reflexivity|apply IH]. Qed.
Lemma start_ok : forall tl l e, state_after tl l -> in_range (st_pos e) ->
  exists tl' out, start_tag tl (st_output e) (st_empty e) (st_pos e) = Ok (tl', out) /\ state_after tl' (l ++ [e]) /\
    wanted (op_position (first_output l e)) (op_prefix (first_positioned l e)) (st_empty e) (st_pos e) out.
Proof.
  intros tl l e (B & P & X & NX) (R1 & R2 & R3 & R4). unfold start_tag.
  assert (IP : match tl_isposition tl with Some b => b | None => op_position (st_output e) end = op_position (first_output l e)).
  { rewrite P. destruct l; reflexivity. }
  rewrite IP. set (b := op_position (first_output l e)) in *.
  assert (HB : option_map (fun x => op_position (st_output x)) (hd_error (l ++ [e])) = Some b) by (unfold b, first_output; destruct l; reflexivity).
  cbn [tl_prefix tl_buffer tl_isposition].
  assert (PB : b = true -> tl_prefix tl = option_map (fun x => op_prefix (st_output x)) (find has_position l)).
  { intros T. destruct l as [|x l]; [cbn in P |- *; rewrite NX; [reflexivity|rewrite P; discriminate]|]. apply X. rewrite P. cbn in *. unfold b in T. cbn in T. rewrite T. reflexivity. }
  assert (PN : b = false -> tl_prefix tl = None).
  { intros T. apply NX. rewrite P. destruct l as [|x l]; [discriminate|]. cbn. unfold b in T. cbn in T. rewrite T. discriminate. }
  destruct b eqn:BB; cbn [andb].
  - destruct (st_empty e) eqn:EE; cbn [negb].
    + eexists. exists []. split; [reflexivity|]. split; [|split; [discriminate|reflexivity]]. split; [exact B|]. rewrite HB. split; [reflexivity|]. cbn [tl_prefix tl_isposition].
      split; [|intros K; destruct (K eq_refl)]. intros _. rewrite find_snoc, PB by reflexivity. replace (has_position e) with false by (unfold has_position; rewrite EE; reflexivity). destruct (find has_position l); reflexivity.
    + destruct (no_extent (st_pos e)) eqn:NE.
      * eexists. exists []. split; [reflexivity|]. split; [|split; [intros _ _ K; destruct K; apply extent, NE|reflexivity]]. split; [exact B|]. rewrite HB. split; [reflexivity|]. cbn [tl_prefix tl_isposition].
        split; [|intros K; destruct (K eq_refl)]. intros _. rewrite find_snoc, PB by reflexivity. replace (has_position e) with false by (unfold has_position; rewrite EE, NE; reflexivity). destruct (find has_position l); reflexivity.
      * rewrite PB by reflexivity. set (pre := match option_map _ _ with Some x => x | None => _ end).
        assert (PE : pre = op_prefix (first_positioned l e)) by (unfold pre, first_positioned; destruct (find has_position l); reflexivity).
        destruct (add_position_ok (tl_buffer tl) pre (st_pos e) B R1 R2 R3 R4) as (s' & out & E & B' & _ & G). rewrite E. cbn [obind fst snd].
        eexists. exists out. split; [reflexivity|]. split.
        { split; [exact B'|]. rewrite HB. split; [reflexivity|]. cbn [tl_prefix tl_isposition]. split; [|intros K; destruct (K eq_refl)]. intros _.
          rewrite find_snoc. replace (has_position e) with true by (unfold has_position; rewrite EE, NE; reflexivity). unfold pre. destruct (find has_position l); reflexivity. }
        split; [|intros [K|[K|K]]; [discriminate K|discriminate K|apply extent in K; rewrite K in NE; discriminate NE]].
        intros _ _ _. rewrite <- PE. destruct (G (extent_not _ NE)) as (x & c & x' & c' & D1 & D2 & D3 & D4 & ->). exists x, c, x', c'. auto 6.
  - eexists. exists []. split; [reflexivity|]. split; [|split; [discriminate|reflexivity]]. split; [exact B|]. rewrite HB. split; [reflexivity|]. cbn [tl_prefix tl_isposition].
    split; [discriminate|]. intros _. apply PN. reflexivity.
Qed.
Definition of_thread (i : nat) (l : list started) : list started := filter (fun x => Nat.eqb (st_thread x) i) l.
Lemma starts_ok : forall l done s, (forall i, state_after (s i) (of_thread i done)) -> Forall (fun e => in_range (st_pos e)) l ->
  exists out, write_starts s l = Ok out /\ length out = length l /\
    forall n e x, nth_error l n = Some e -> nth_error out n = Some x ->
      let before := same_thread e (done ++ firstn n l) in
      wanted (op_position (first_output before e)) (op_prefix (first_positioned before e)) (st_empty e) (st_pos e) x.
Proof.
  induction l as [|e l IH]; intros done s I F; [exists []; split; [reflexivity|]; split; [reflexivity|]; intros [|n] e x H; discriminate H|].
  cbn [write_starts]. destruct (start_ok (s (st_thread e)) (of_thread (st_thread e) done) e (I _) (Forall_inv F)) as (tl & x & E & S & W). rewrite E. cbn [obind fst snd].
  destruct (IH (done ++ [e]) (upd_thread s (st_thread e) tl)) as (out & E2 & L & K); [|exact (Forall_inv_tail F)|].
  - intros i. unfold upd_thread, of_thread. rewrite filter_app. cbn [filter]. destruct (Nat.eqb (st_thread e) i) eqn:Q; [|rewrite app_nil_r; apply I].
    apply Nat.eqb_eq in Q. subst i. exact S.
  - rewrite E2. cbn [obind]. exists (x :: out). split; [reflexivity|]. split; [cbn; lia|]. intros [|n] e' x' H1 H2; cbn in H1, H2.
    + injection H1 as <-. injection H2 as <-. cbn [firstn]. rewrite app_nil_r. exact W.
    + specialize (K n e' x' H1 H2). cbn [firstn]. rewrite <- app_assoc in K. exact K.
Qed.
Lemma threads_ok : forall l, Forall (fun e => in_range (st_pos e)) l ->
  exists out, write_starts (fun _ => new_thread) l = Ok out /\ length out = length l /\
    forall n e x, nth_error l n = Some e -> nth_error out n = Some x ->
      let before := same_thread e (firstn n l) in
      wanted (op_position (first_output before e)) (op_prefix (first_positioned before e)) (st_empty e) (st_pos e) x.
Proof.
  intros l F. destruct (starts_ok l [] (fun _ => new_thread)) as (out & E & L & K); [|exact F|exists out; auto].
  intros i. split; [split; reflexivity|]. split; [reflexivity|]. split; [discriminate|reflexivity].
Qed.
Lemma find_in_list : forall A (f : A -> bool) l x, find f l = Some x -> In x l.
Proof. intros A f l x H. apply find_some in H. apply H. Qed.
(** a thread that writes for one archive, or for archives with the same option and prefix *)
Lemma threads_same : forall l, Forall (fun e => in_range (st_pos e)) l ->
  (forall e e', In e l -> In e' l -> st_thread e = st_thread e' -> st_output e = st_output e') ->
  exists out, write_starts (fun _ => new_thread) l = Ok out /\ length out = length l /\
    forall n e x, nth_error l n = Some e -> nth_error out n = Some x ->
      wanted (op_position (st_output e)) (op_prefix (st_output e)) (st_empty e) (st_pos e) x.
Proof.
  intros l F S. destruct (threads_ok l F) as (out & E & L & K). exists out. split; [exact E|]. split; [exact L|]. intros n e x H1 H2. specialize (K n e x H1 H2). cbv zeta in K.
  set (b := same_thread e (firstn n l)) in *.
  assert (IN : forall y, In y b -> st_output y = st_output e).
  { intros y Y. apply filter_In in Y as (Y & T). apply Nat.eqb_eq in T. apply S; [|eapply nth_error_In, H1|exact T]. rewrite <- (firstn_skipn n l). apply in_or_app. left. exact Y. }
  assert (A : first_output b e = st_output e) by (unfold first_output; destruct b; [reflexivity|apply IN; left; reflexivity]).
  assert (B : first_positioned b e = st_output e) by (unfold first_positioned; destruct (find has_position b) as [y|] eqn:FD; [apply IN, (find_in_list _ _ _ _ FD)|reflexivity]).
  rewrite A, B in K. exact K.
Qed.
