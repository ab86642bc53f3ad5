(** C09: as many end tags as start tags. *)
From Verif Require Import Base Parser_Model Parser_Spec Parser_Proofs Parser_Proofs2 Parser_Proofs3
  Parser_View Parser_View2 Parser_View3 Parser_View4.
From Coq Require Import Permutation.

Definition is_start (t : otok) : bool := visible t && match o_cat t with Kstart => true | _ => false end.
Definition is_end (t : otok) : bool := visible t && match o_cat t with Kend => true | _ => false end.
Definition is_empty (t : otok) : bool := visible t && match o_cat t with Kempty => true | _ => false end.

Lemma opens_app a b : opens (a ++ b) = opens a + opens b.
Proof. unfold opens. rewrite filter_app, app_length. reflexivity. Qed.
Lemma closes_app a b : closes (a ++ b) = closes a + closes b.
Proof. unfold closes. rewrite filter_app, app_length. reflexivity. Qed.
Lemma outputs_app a b : outputs (a ++ b) = outputs a ++ outputs b.
Proof. unfold outputs. rewrite map_app, concat_app. reflexivity. Qed.

Definition count (f : otok -> bool) (l : list otok) := length (filter f l).
Lemma count_app f a b : count f (a ++ b) = count f a + count f b.
Proof. unfold count. rewrite filter_app, app_length. reflexivity. Qed.

Lemma token_opens t : kind_ok t -> opens (outputToken t) = count is_start [t] + count is_empty [t].
Proof.
  unfold kind_ok, outputToken, count, is_start, is_empty, visible, opens. cbn [filter].
  destruct (o_type t) as [[]| |[]], (o_cat t); cbn; intros H; try contradiction; reflexivity.
Qed.
Lemma token_closes t : kind_ok t -> closes (outputToken t) = count is_end [t] + count is_empty [t].
Proof.
  unfold kind_ok, outputToken, count, is_end, is_empty, visible, closes. cbn [filter].
  destruct (o_type t) as [[]| |[]], (o_cat t); cbn; intros H; try contradiction; reflexivity.
Qed.
Lemma cons_app {A} (x : A) l : x :: l = [x] ++ l.
Proof. reflexivity. Qed.

Lemma opens_outputs l : (forall t, In t l -> kind_ok t) -> opens (outputs l) = count is_start l + count is_empty l.
Proof.
  induction l as [|t l IH]; intros H; [reflexivity|].
  rewrite (cons_app t l), outputs_app, opens_app, !count_app, IH by (intros u X; apply H; right; exact X).
  unfold outputs at 1. cbn [map concat]. rewrite app_nil_r, token_opens by (apply H; left; reflexivity). lia.
Qed.
Lemma closes_outputs l : (forall t, In t l -> kind_ok t) -> closes (outputs l) = count is_end l + count is_empty l.
Proof.
  induction l as [|t l IH]; intros H; [reflexivity|].
  rewrite (cons_app t l), outputs_app, closes_app, !count_app, IH by (intros u X; apply H; right; exact X).
  unfold outputs at 1. cbn [map concat]. rewrite app_nil_r, token_closes by (apply H; left; reflexivity). lia.
Qed.

(** The part of one token's output: nothing is closed in it before it is opened, except by an end tag as a whole. *)
Lemma token_part t n : kind_ok t ->
  closes (firstn n (outputToken t)) <= opens (firstn n (outputToken t)) \/ firstn n (outputToken t) = outputToken t.
Proof.
  intros _. unfold outputToken. destruct n as [|[|n]].
  - left. cbn. unfold closes, opens. cbn. lia.
  - destruct (o_type t) as [[]| |[]], (o_cat t); cbn; auto; left; unfold closes, opens; cbn; lia.
  - right. destruct (o_type t) as [[]| |[]], (o_cat t); cbn; rewrite ?firstn_nil; reflexivity.
Qed.

Lemma firstn_outputs n : forall l, exists a t c k, firstn n (outputs l) = outputs a ++ firstn k (outputToken t) /\
  (l = a ++ t :: c \/ (l = a /\ k = 0)).
Proof.
  intros l. revert n. induction l as [|x l IH]; intros n.
  - exists [], (OTok 0 TEof Ktext [] None), [], 0. cbn. rewrite firstn_nil. auto.
  - unfold outputs. cbn [map concat]. fold (outputs l). rewrite firstn_app.
    destruct (le_lt_dec n (length (outputToken x))) as [Q|Q].
    + exists [], x, l, n. replace (n - length (outputToken x)) with 0 by lia.
      cbn [firstn outputs map concat app]. rewrite app_nil_r. auto.
    + destruct (IH (n - length (outputToken x))) as [a [t [c [k [E F]]]]].
      exists (x :: a), t, c, k. rewrite E, (firstn_all2 (outputToken x)) by lia.
      unfold outputs. cbn [map concat]. rewrite <- app_assoc. split; [reflexivity|].
      destruct F as [-> | [-> ->]]; [left; reflexivity|right; auto].
Qed.

Lemma outputs_over l : (forall t, In t l -> kind_ok t) ->
  (forall a c, l = a ++ c -> count is_end a <= count is_start a) -> never_over_closed (outputs l).
Proof.
  intros Kl H n. destruct (firstn_outputs n l) as [a [t [c [k [E [F|[F ->]]]]]]].
  - assert (Ka : forall u, In u a -> kind_ok u) by (intros u X; apply Kl; rewrite F; apply in_or_app; left; exact X).
    assert (Kt : kind_ok t) by (apply Kl; rewrite F; apply in_or_app; right; left; reflexivity).
    destruct (token_part t k Kt) as [P|P].
    + rewrite E, opens_app, closes_app, opens_outputs, closes_outputs by exact Ka.
      specialize (H a (t :: c) F). lia.
    + rewrite P in E. assert (Q : firstn n (outputs l) = outputs (a ++ [t])).
      { rewrite E, outputs_app. unfold outputs at 3. cbn. rewrite app_nil_r. reflexivity. }
      assert (Kat : forall u, In u (a ++ [t]) -> kind_ok u).
      { intros u X. apply in_app_or in X. destruct X as [X|[<-|[]]]; [apply Ka, X|exact Kt]. }
      rewrite Q, opens_outputs, closes_outputs by exact Kat.
      assert (X := H (a ++ [t]) c). rewrite <- app_assoc in X. specialize (X F). lia.
  - rewrite E. cbn [firstn]. rewrite app_nil_r. rewrite F in Kl. rewrite opens_outputs, closes_outputs by exact Kl.
    assert (X := H a []). rewrite app_nil_r in X. specialize (X F). lia.
Qed.

(** Ends and starts, by their identities. *)
Definition end_ids l := ended (filter is_end l).
Definition start_ids l := ids (filter is_start l).
Lemma in_start_ids n l : In n (start_ids l) <-> exists t, In t l /\ o_id t = n /\ visible t = true /\ o_cat t = Kstart.
Proof.
  unfold start_ids, ids. rewrite in_map_iff. split; intros [t T]; exists t.
  - destruct T as [E T]. apply filter_In in T. destruct T as [T F]. unfold is_start in F.
    apply andb_prop in F. destruct F as [F1 F2]. repeat split; try assumption. destruct (o_cat t); (reflexivity || discriminate F2).
  - destruct T as [T [E [F1 F2]]]. split; [exact E|]. apply filter_In. split; [exact T|]. unfold is_start. rewrite F1, F2. reflexivity.
Qed.
Lemma in_end_ids n l : In n (end_ids l) <-> exists t, In t l /\ o_of t = Some n /\ visible t = true /\ o_cat t = Kend.
Proof.
  unfold end_ids. rewrite in_ended. split; intros [t T]; exists t.
  - destruct T as [T E]. apply filter_In in T. destruct T as [T F]. unfold is_end in F.
    apply andb_prop in F. destruct F as [F1 F2]. repeat split; try assumption. destruct (o_cat t); (reflexivity || discriminate F2).
  - destruct T as [T [E [F1 F2]]]. split; [|exact E]. apply filter_In. split; [exact T|]. unfold is_end. rewrite F1, F2. reflexivity.
Qed.
Lemma nodup_ended_filter f l : NoDup (ended l) -> NoDup (ended (filter f l)).
Proof.
  induction l as [|t l IH]; intros N; [constructor|]. rewrite ended_cons in N. cbn [filter].
  assert (N2 : NoDup (ended l)) by (destruct (o_of t); [inversion N; assumption|exact N]).
  destruct (f t); [|apply IH, N2]. rewrite ended_cons. destruct (o_of t) as [n|]; [|apply IH, N2].
  cbn in *. inversion N as [|? ? X _]; subst. constructor; [|apply IH, N2].
  intros Y. apply X. apply in_ended in Y. destruct Y as [u [Y1 Y2]]. apply filter_In in Y1. apply in_ended. exists u. tauto.
Qed.
Lemma nodup_ids_filter f l : NoDup (ids l) -> NoDup (ids (filter f l)).
Proof.
  induction l as [|t l IH]; intros N; [constructor|]. cbn in *. inversion N as [|? ? N1 N2]; subst.
  destruct (f t); [|apply IH, N2]. cbn. constructor; [|apply IH, N2].
  intros X. apply N1. unfold ids in *. apply in_map_iff in X. destruct X as [u [X1 X2]]. apply filter_In in X2.
  apply in_map_iff. exists u. tauto.
Qed.
Lemma nodup_prefix {A} (a b : list A) : NoDup (a ++ b) -> NoDup a.
Proof.
  induction a as [|x a IH]; intros N; [constructor|]. inversion N as [|? ? N1 N2]; subst.
  constructor; [|apply IH, N2]. intros X. apply N1, in_or_app. left. exact X.
Qed.
Lemma length_ended l : (forall t, In t l -> o_of t <> None) -> length (ended l) = length l.
Proof.
  induction l as [|t l IH]; intros H; [reflexivity|]. rewrite ended_cons, app_length, IH.
  - specialize (H t (or_introl eq_refl)). destruct (o_of t); [reflexivity|congruence].
  - intros u X. apply H. right. exact X.
Qed.

Lemma unit_invisible t : o_type t = TE Eunit -> visible t = false.
Proof. intros E. unfold visible. rewrite E. reflexivity. Qed.

Lemma balance v u0 l b :
  all v = u0 :: l ++ b -> o_type u0 = TE Eunit -> o_cat u0 = Kstart -> U v -> B v -> K v ->
  never_over_closed (outputs l) /\
  ((exists y b', b = y :: b' /\ o_type y = TEof) -> opens (outputs l) = closes (outputs l)).
Proof.
  intros A Q0 C0 H Bv Kv.
  assert (Kl : forall t, In t l -> kind_ok t).
  { intros t X. apply Kv. rewrite A. right. apply in_or_app. left. exact X. }
  assert (Part : forall a c, l = a ++ c ->
    (forall n, In n (end_ids a) -> In n (start_ids a)) /\ NoDup (end_ids a) /\ length (end_ids a) = count is_end a).
  { intros a c E.
    assert (O : forall u, In u a -> o_cat u = Kend -> exists t, In t (u0 :: a) /\ o_cat t = Kstart /\
                 o_of u = Some (o_id t) /\ visible t = visible u).
    { intros u X Y. apply in_split in X. destruct X as [a1 [a2 ->]].
      destruct (b_order _ Bv (u0 :: a1) u (a2 ++ c ++ b)) as [t [T1 T2]]; [rewrite A, E; cbn; rewrite <- !app_assoc; reflexivity|exact Y|].
      exists t. split; [|exact T2]. destruct T1 as [T1|T1]; [left; exact T1|right; apply in_or_app; left; exact T1]. }
    split; [|split].
    - intros n X. apply in_end_ids in X. destruct X as [u [X1 [X2 [X3 X4]]]].
      destruct (O u X1 X4) as [t [[T1|T1] [T2 [T3 T4]]]].
      + subst t. rewrite (unit_invisible u0 Q0) in T4. congruence.
      + apply in_start_ids. exists t. repeat split; congruence.
    - apply nodup_ended_filter. pose proof (b_once _ Bv) as N. rewrite A, E in N.
      rewrite ended_cons, <- app_assoc, ended_app in N.
      assert (N2 : NoDup (ended a ++ ended (c ++ b))).
      { destruct (o_of u0); [inversion N; assumption|exact N]. }
      apply nodup_prefix in N2. exact N2.
    - unfold end_ids, count. apply length_ended. intros u X. apply filter_In in X. destruct X as [X Y].
      unfold is_end in Y. apply andb_prop in Y. destruct Y as [_ Y]. destruct (o_cat u) eqn:Cu; try discriminate Y.
      destruct (O u X Cu) as [t [_ [_ [T _]]]]. congruence. }
  split.
  - apply outputs_over; [exact Kl|]. intros a c E. destruct (Part a c E) as [P1 [P2 P3]].
    rewrite <- P3. assert (L : length (end_ids a) <= length (start_ids a)) by (apply NoDup_incl_length; [exact P2|exact P1]).
    unfold start_ids, ids in L. rewrite map_length in L. exact L.
  - intros [y [b' [Eb Ty]]]. rewrite opens_outputs, closes_outputs by exact Kl.
    destruct (Part l [] (eq_sym (app_nil_r l))) as [P1 [P2 P3]].
    assert (S : forall n, In n (start_ids l) -> In n (end_ids l)).
    { intros n X. apply in_start_ids in X. destruct X as [t [X1 [X2 [X3 X4]]]].
      assert (E : In (o_id t) (ended (u0 :: l))).
      { apply (b_eof _ Bv (u0 :: l) y b'); [rewrite A, Eb; reflexivity|exact Ty|right; exact X1|exact X4]. }
      apply in_ended in E. destruct E as [u [E1 E2]].
      destruct E1 as [E1|E1].
      { subst u. rewrite (u_of _ H u0) in C0; [discriminate C0|rewrite A; left; reflexivity|congruence]. }
      assert (Ku : o_cat u = Kend).
      { apply (u_of _ H); [rewrite A; right; apply in_or_app; left; exact E1|congruence]. }
      apply in_end_ids. exists u. split; [exact E1|]. split; [congruence|]. split; [|exact Ku].
      apply in_split in E1. destruct E1 as [a1 [a2 E1]].
      destruct (b_order _ Bv (u0 :: a1) u (a2 ++ b)) as [w [W1 [W2 [W3 W4]]]];
        [rewrite A, E1; cbn; rewrite <- app_assoc; reflexivity|exact Ku|].
      assert (w = t).
      { apply (same_id v w t H).
        - rewrite A, E1. destruct W1 as [<-|W1]; [left; reflexivity|right]. apply in_or_app. left. apply in_or_app. left. exact W1.
        - rewrite A. right. apply in_or_app. left. exact X1.
        - congruence. }
      subst w. congruence. }
    assert (L1 : length (end_ids l) <= length (start_ids l)) by (apply NoDup_incl_length; [exact P2|exact P1]).
    assert (L2 : length (start_ids l) <= length (end_ids l)).
    { apply NoDup_incl_length; [|exact S]. apply nodup_ids_filter.
      pose proof (u_ids _ H) as N. rewrite A in N. cbn in N. inversion N as [|? ? _ N2]; subst.
      unfold ids in N2. rewrite map_app in N2. apply nodup_prefix in N2. exact N2. }
    rewrite P3 in L1, L2. unfold start_ids, ids in L1, L2. rewrite map_length in L1, L2. unfold count in *. lia.
Qed.

Lemma stream_balance o rs src cs l e s :
  pull o rs cs (construct src) = (l, e, s) ->
  (forall f, In f (log s) -> f = Fcomment \/ f = Fouter) ->
  never_over_closed (outputs l) /\ (e = AtEof -> opens (outputs l) = closes (outputs l)).
Proof.
  intros P N. destruct (parse_run _ _ _ _ _ _ _ P) as [x [b [R [A E]]]].
  assert (N1 : ~ In Fnop (log s)) by (intros X; destruct (N _ X); discriminate).
  assert (N2 : ~ In Fmacro (log s)) by (intros X; destruct (N _ X); discriminate).
  destruct (balance (look x s) _ l b A eq_refl eq_refl) as [G1 G2].
  - apply (U_run _ _ _ R U_first).
  - apply (B_run _ _ _ N R U_first B_first).
  - apply (K_run _ _ _ N1 N2 R U_first K_first).
  - split; [exact G1|]. intros X. apply G2, E, X.
Qed.
