(** Element helpers end what their rule left open; a new mode remembers the one it was started in. *)
From Verif Require Import Base Parser_Model Parser_Spec Parser_Proofs Parser_Modes Parser_Modes2 Scope_Spec.

Lemma end_one s t r x oo : modes s = t :: r -> opened t = x :: oo -> modes (endElement s) = with_opened oo t :: r.
Proof.
  intros M O. unfold endElement. rewrite modes_note_if. unfold end_element. rewrite M, O. destruct x as [o e]. destruct (N.eqb _ _); reflexivity.
Qed.
Lemma ends_some : forall n s t r, guessing s = 0 -> modes s = t :: r -> n <= length (opened t) ->
  modes (Nat.iter n endElement s) = with_opened (skipn n (opened t)) t :: r /\ guessing (Nat.iter n endElement s) = 0 /\
  (no_reissue t -> tags (Nat.iter n endElement s) = tags s ++ map (fun x => (TE (snd x), Kend)) (firstn n (opened t))).
Proof.
  induction n as [|n IH]; intros s t r G M L.
  - cbn [Nat.iter nat_rect skipn firstn map]. rewrite app_nil_r. split; [rewrite M; destruct t; reflexivity|]. split; [exact G|reflexivity].
  - destruct (opened t) as [|x oo] eqn:O; [cbn in L; lia|]. rewrite iter_S. cbn [length] in L.
    pose proof (end_one s t r x oo M O) as M1.
    destruct (IH (endElement s) (with_opened oo t) r) as (A & B & C); [rewrite g_end; exact G|exact M1|cbn; lia|].
    split; [rewrite A; reflexivity|]. split; [exact B|]. intros Nr. rewrite C by exact Nr.
    destruct x as [o e]. pose proof (end_tag s t r o e oo G M O Nr) as [E1 _]. unfold tags. unfold tag in E1. rewrite E1, <- app_assoc. reflexivity.
Qed.
Lemma modes_end_modes : forall n s, n < size s -> guessing s = 0 ->
  exists s2 a, end_modes n s = Ret s2 /\ modes s = a ++ modes s2 /\ length a = n /\ guessing s2 = 0 /\
    (Forall no_reissue a -> tags s2 = tags s ++ map (fun e => (TE e, Kend)) (open_types a)).
Proof.
  induction n as [|n IH]; intros s L G.
  - exists s, []. cbn. rewrite app_nil_r. auto.
  - cbn [end_modes]. unfold endMode. destruct (size s <=? 1) eqn:Q; [apply Nat.leb_le in Q; lia|]. cbn [bind].
    unfold size in L. destruct (modes s) as [|t r] eqn:M; [cbn in L; lia|]. cbn [length] in L.
    assert (M1 : modes (popMode s) = r) by (rewrite tl_popMode, M; reflexivity).
    assert (TO : top_open s = length (opened t)) by (unfold top_open; rewrite M; reflexivity).
    assert (G1 : guessing (popMode s) = 0).
    { unfold popMode. cbn [guessing set_modes]. rewrite TO. apply (ends_some _ s t r G M). lia. }
    destruct (IH (popMode s)) as (s2 & a & E & A & B & C & D); [unfold size; rewrite M1; lia|exact G1|].
    exists s2, (t :: a). split; [exact E|]. split; [rewrite <- M1, A; reflexivity|]. split; [cbn; lia|]. split; [exact C|].
    intros F. rewrite (D (Forall_inv_tail F)). pose proof (pop_tags s t r G M (Forall_inv F)) as [P1 _]. unfold tags. unfold tag in P1. rewrite P1.
    rewrite open_types_cons, <- app_assoc, map_app, map_map. reflexivity.
Qed.
Lemma leave_ok c s s1 : guessing s = 0 -> guessing s1 = 0 -> modes s <> [] -> modes s1 <> [] ->
  exists s2, leave_scope c s s1 = Ret s2 /\ scope_end c s s1 s2.
Proof.
  intros G G1 M M1. unfold leave_scope. rewrite G, G1. cbn [Nat.ltb Nat.leb]. destruct (modes s) as [|t r] eqn:E; [contradiction|].
  destruct (modes s1) as [|t1 r1] eqn:E1; [contradiction|]. destruct c.
  - destruct (modes_end_modes (size s1 - size s) s1) as (s2 & a & X & A & B & _ & D); [unfold size; rewrite E, E1; cbn; lia|exact G1|].
    rewrite X. exists s2. split; [reflexivity|]. exists a. split; [exact A|]. split; [rewrite B; reflexivity|exact D].
  - destruct (ends_some (top_open s1 - top_open s) s1 t1 r1 G1 E1) as (A & _ & B); [unfold top_open; rewrite E1; lia|].
    eexists. split; [reflexivity|]. cbn [scope_end]. rewrite E, E1. unfold top_open in *. rewrite E, E1 in *.
    exists (firstn (length (opened t1) - length (opened t)) (opened t1)), (skipn (length (opened t1) - length (opened t)) (opened t1)).
    split; [symmetry; apply firstn_skipn|]. split; [rewrite firstn_length; lia|]. split; [exact A|exact B].
  - eexists. split; [reflexivity|]. cbn [scope_end]. rewrite E1.
    assert (TO : top_open s1 = length (opened t1)) by (unfold top_open; rewrite E1; reflexivity). rewrite TO.
    destruct (ends_some (Nat.min 1 (length (opened t1))) s1 t1 r1 G1 E1) as (A & _ & B); [lia|].
    destruct (opened t1) as [|x oo] eqn:O.
    + cbn [length Nat.min Nat.iter nat_rect tl firstn] in *. split; [rewrite A; cbn; reflexivity|exact B].
    + cbn [length Nat.min tl firstn] in *. split; [exact A|exact B].
Qed.
Lemma scope_ok o c b s s1 : guessing s = 0 -> guessing s1 = 0 -> modes s <> [] -> modes s1 <> [] ->
  (run o b s = Ret s1 -> exists s2, run o (Pscope c b Pdone) s = Ret s2 /\ scope_end c s s1 s2) /\
  (forall x, run o b s = Exn x s1 -> exists s2, run o (Pscope c b Pdone) s = Exn x s2 /\ scope_end c s s1 s2).
Proof.
  intros G G1 M M1. destruct (leave_ok c s s1 G G1 M M1) as (s2 & L & E).
  assert (EN : enter_scope c s = Ret s) by (unfold enter_scope; rewrite G; destruct c, (modes s); try reflexivity; contradiction).
  split; intros H; try intros H1; cbn [run]; rewrite EN; cbn [bind].
  - rewrite H, L. cbn [bind run]. exists s2. split; [reflexivity|exact E].
  - rewrite H1, L. exists s2. split; [reflexivity|exact E].
Qed.
(** modes *)
Lemma new_mode m n s : modes s <> [] ->
  (inMode m (startNewMode n s) = true <-> N.land n m = m) /\
  inPrevMode m (startNewMode n s) = inMode m s /\
  (forall b, inTransparentMode (2 ^ b) (startNewMode n s) = N.testbit n b || inTransparentMode (2 ^ b) s) /\
  modes (popMode (startNewMode n s)) = modes s.
Proof.
  intros M. destruct (modes s) as [|t r] eqn:E; [contradiction|]. split; [|split; [|split]].
  - unfold inMode, startNewMode. cbn [modes set_modes flags]. apply N.eqb_eq.
  - unfold inPrevMode, startNewMode, inMode, getMode. cbn [modes set_modes flags_prev]. rewrite E. reflexivity.
  - intros b. unfold inTransparentMode, startNewMode. rewrite E. cbn [modes set_modes flags_all].
    assert (X : forall x, N.eqb (N.land x (2 ^ b)) (2 ^ b) = N.testbit x b).
    { intros x. destruct (N.testbit x b) eqn:B; [apply N.eqb_eq, land_bit, B|]. apply N.eqb_neq. intros F. apply land_bit in F. congruence. }
    rewrite !X, N.lor_spec. apply orb_comm.
  - rewrite tl_popMode. unfold startNewMode. cbn [modes set_modes tl]. exact E.
Qed.
(** the mode it was started in does not change with the modes set later *)
Lemma previous_kept m k s t r : modes s = t :: r -> r <> [] ->
  inPrevMode m s = N.eqb (N.land (flags_prev t) m) m /\
  (forall s', on_top (state_set k) s = Ret s' \/ on_top (state_clear k) s = Ret s' -> inPrevMode m s' = inPrevMode m s) /\
  (forall s', endElement s = s' -> inPrevMode m s' = inPrevMode m s).
Proof.
  intros M R. destruct r as [|u r]; [contradiction|]. split; [unfold inPrevMode; rewrite M; reflexivity|]. split.
  - intros s' H. unfold on_top in H. rewrite M in H. destruct H as [H|H]; injection H as <-; unfold inPrevMode; rewrite M; reflexivity.
  - intros s' <-. unfold inPrevMode at 2. rewrite M. destruct (opened t) as [|x oo] eqn:O.
    + assert (Q : modes (endElement s) = t :: u :: r) by (unfold endElement; rewrite modes_note_if; unfold end_element; rewrite M, O; exact M).
      unfold inPrevMode. rewrite Q. reflexivity.
    + unfold inPrevMode. rewrite (end_one s t (u :: r) x oo M O). reflexivity.
Qed.
