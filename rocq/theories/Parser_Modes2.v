(** C10: unwinding. *)
From Verif Require Import Base Parser_Model Parser_Spec Parser_Proofs Parser_Proofs2 Parser_Proofs3 Parser_Modes.

(** What [end_while] leaves, when the condition looks only at the current state. *)
Fixpoint down (c : mstate -> bool) (l : list mstate) : list mstate :=
  match l with
  | [] => []
  | t :: r => match r with [] => l | _ => if c t then down c r else l end
  end.

Lemma while_down c c' n : forall s,
  (forall s t r, modes s = t :: r -> c' s = c t) -> size s <= n ->
  modes (end_while n c' s) = down c (modes s).
Proof.
  induction n as [|n IH]; intros s Q L.
  - unfold size in L. destruct (modes s) eqn:M; [cbn; rewrite M; reflexivity|cbn in L; lia].
  - cbn [end_while]. unfold size in *. destruct (modes s) as [|t r] eqn:M; cbn [length down] in *; [exact M|].
    rewrite (Q s t r M). destruct r as [|u r]; cbn [length] in *.
    + exact M.
    + change (1 <? S (S (length r))) with true. cbn [andb]. destruct (c t); [|exact M].
      rewrite IH; [rewrite tl_popMode, M; reflexivity|exact Q|].
      rewrite tl_popMode, M. cbn. lia.
Qed.

Lemma down_spec c l : l <> [] -> exists a, removed a l (down c l) /\ Forall (fun t => c t = true) a /\
  (exists t r, down c l = t :: r /\ (c t = false \/ r = [])).
Proof.
  induction l as [|t l IH]; intros N; [congruence|]. cbn [down]. destruct l as [|u l].
  - exists []. split; [split; [reflexivity|discriminate]|]. split; [constructor|]. exists t, []. auto.
  - destruct (c t) eqn:C.
    + destruct IH as [a [[A1 A2] [A3 A4]]]; [discriminate|]. exists (t :: a).
      split; [split; [|exact A2]|split; [constructor; assumption|exact A4]].
      change (t :: u :: l = t :: a ++ down c (u :: l)). f_equal. exact A1.
    + exists []. split; [split; [reflexivity|discriminate]|]. split; [constructor|]. exists t, (u :: l). auto.
Qed.
Lemma down_at c a t r : Forall (fun x => c x = true) a -> c t = false -> down c (a ++ t :: r) = t :: r.
Proof.
  intros F H. induction F as [|x a X F IH]; cbn [app down].
  - rewrite H. destruct r; reflexivity.
  - rewrite X. destruct (a ++ t :: r) eqn:E; [destruct a; discriminate E|]. exact IH.
Qed.

Definition lacks m (t : mstate) : bool := negb (N.eqb (N.land (flags t) m) m).
Lemma lacks_true m t : lacks m t = true <-> ~ has_modes m t.
Proof. unfold lacks, has_modes. destruct (N.eqb_spec (N.land (flags t) m) m); cbn; split; congruence. Qed.
Lemma lacks_false m t : lacks m t = false <-> has_modes m t.
Proof. unfold lacks, has_modes. destruct (N.eqb_spec (N.land (flags t) m) m); cbn; split; congruence. Qed.
Lemma cond_lacks m s t r : modes s = t :: r -> negb (inMode m s) = lacks m t.
Proof. intros M. unfold inMode. rewrite M. reflexivity. Qed.
Lemma cond_in m s t r : modes s = t :: r -> inMode m s = negb (lacks m t).
Proof. intros M. unfold inMode, lacks. rewrite M, negb_involutive. reflexivity. Qed.
Lemma cond_set m s t r : modes s = t :: r -> N.eqb (N.land (getMode s) m) 0 = N.eqb (N.land (flags t) m) 0.
Proof. intros M. unfold getMode. rewrite M. reflexivity. Qed.

Lemma downto_modes m s : modes (end_while (size s) (fun s => negb (inMode m s)) s) = down (lacks m) (modes s).
Proof. apply while_down; [apply cond_lacks|apply le_n]. Qed.

(** Unwinding to a mode whose nearest state is [t]. *)
Lemma unwind_to m s a t r :
  modes s = a ++ t :: r -> inTransparentMode m s = true -> Forall (fun x => ~ has_modes m x) a -> has_modes m t ->
  modes (endDownToMode m s) = t :: r.
Proof.
  intros M T F H. unfold endDownToMode. rewrite T, downto_modes, M. apply down_at.
  - eapply Forall_impl; [|exact F]. intros x. apply lacks_true.
  - apply lacks_false, H.
Qed.
Lemma unwind_not m s : inTransparentMode m s = false -> endDownToMode m s = s /\ endDownOverMode m s = Ret s.
Proof. intros T. unfold endDownToMode, endDownOverMode. rewrite T. auto. Qed.
Lemma unwind_over m s a t r :
  modes s = a ++ t :: r -> inTransparentMode m s = true -> Forall (fun x => ~ has_modes m x) a -> has_modes m t ->
  match endDownOverMode m s with
  | Ret s' => r <> [] /\ modes s' = r
  | Exn x s' => r = [] /\ x = Fault /\ modes s' = [t]
  | _ => False
  end.
Proof.
  intros M T F H. unfold endDownOverMode. rewrite T. unfold endMode.
  set (s1 := end_while _ _ _). assert (M1 : modes s1 = t :: r).
  { unfold s1. rewrite downto_modes, M. apply down_at; [|apply lacks_false, H].
    eapply Forall_impl; [|exact F]. intros x. apply lacks_true. }
  unfold size. rewrite M1. destruct r as [|u r]; cbn [length Nat.leb].
  - auto.
  - split; [discriminate|]. rewrite tl_popMode, M1. reflexivity.
Qed.

(** In every case inner states are removed, never the bottom one. *)
Lemma removed_refl l : l <> [] -> removed [] l l.
Proof. intros N. split; [reflexivity|exact N]. Qed.
Lemma unwind_removed o act s : modes s <> [] ->
  (exists m, act = AendDownTo m \/ act = AendDownToSet m \/ act = AendDownOver m \/ act = AendWhile m) \/ act = AendMode ->
  exists s' a, ends_in (act_step o act s) s' /\ removed a (modes s) (modes s').
Proof.
  intros N [[m [->|[->|[->| ->]]]]| ->]; cbn [act_step].
  - exists (endDownToMode m s). unfold endDownToMode. destruct (inTransparentMode m s).
    + rewrite downto_modes. destruct (down_spec (lacks m) (modes s) N) as [a [A _]]. exists a. split; [left; reflexivity|exact A].
    + exists []. split; [left; reflexivity|apply removed_refl, N].
  - exists (endDownToModeSet m s). unfold endDownToModeSet.
    rewrite (while_down (fun t => N.eqb (N.land (flags t) m) 0)) by (intros; try apply cond_set with (r := r); auto).
    destruct (down_spec (fun t => N.eqb (N.land (flags t) m) 0) (modes s) N) as [a [A _]].
    exists a. split; [left; reflexivity|exact A].
  - unfold endDownOverMode. destruct (inTransparentMode m s).
    + unfold endMode. set (s1 := end_while _ _ _).
      destruct (down_spec (lacks m) (modes s) N) as [a [[A1 A2] [_ [t [r [A3 _]]]]]].
      assert (M1 : modes s1 = t :: r) by (unfold s1; rewrite downto_modes; exact A3).
      unfold size. rewrite M1. destruct r as [|u r]; cbn [length Nat.leb].
      * exists s1, a. split; [right; eexists; reflexivity|]. rewrite M1, A3 in *. split; assumption.
      * exists (popMode s1), (a ++ [t]). split; [left; reflexivity|]. rewrite tl_popMode, M1. cbn [tl].
        split; [|discriminate]. rewrite A1, A3, <- app_assoc. reflexivity.
    + exists s, []. split; [left; reflexivity|apply removed_refl, N].
  - exists (endWhileMode m s). unfold endWhileMode.
    rewrite (while_down (fun t => negb (lacks m t))) by (intros; try apply cond_in with (r := r); auto).
    destruct (down_spec (fun t => negb (lacks m t)) (modes s) N) as [a [A _]].
    exists a. split; [left; reflexivity|exact A].
  - unfold endMode, size. destruct (modes s) as [|t [|u r]] eqn:M; [congruence| |]; cbn [length Nat.leb].
    + exists s, []. split; [right; eexists; reflexivity|]. rewrite M. apply removed_refl. discriminate.
    + exists (popMode s), [t]. split; [left; reflexivity|]. rewrite tl_popMode, M. split; [reflexivity|discriminate].
Qed.

(** The nearest state that shares a mode, or the bottom. *)
Lemma unwind_set m s : modes s <> [] ->
  exists a t r, removed a (modes s) (t :: r) /\ modes (endDownToModeSet m s) = t :: r /\
    Forall (fun x => N.land (flags x) m = 0%N) a /\ (N.land (flags t) m <> 0%N \/ r = []).
Proof.
  intros N. unfold endDownToModeSet.
  rewrite (while_down (fun t => N.eqb (N.land (flags t) m) 0)) by (intros; try apply cond_set with (r := r); auto).
  destruct (down_spec (fun t => N.eqb (N.land (flags t) m) 0) (modes s) N) as [a [A [F [t [r [E C]]]]]].
  exists a, t, r. rewrite E in *. split; [exact A|]. split; [reflexivity|]. split.
  - eapply Forall_impl; [|exact F]. intros x X. apply N.eqb_eq, X.
  - destruct C as [C|C]; [left; apply N.eqb_neq, C|right; exact C].
Qed.
Lemma unwind_while m s : modes s <> [] ->
  exists a t r, removed a (modes s) (t :: r) /\ modes (endWhileMode m s) = t :: r /\
    Forall (has_modes m) a /\ (~ has_modes m t \/ r = []).
Proof.
  intros N. unfold endWhileMode.
  rewrite (while_down (fun t => negb (lacks m t))) by (intros; try apply cond_in with (r := r); auto).
  destruct (down_spec (fun t => negb (lacks m t)) (modes s) N) as [a [A [F [t [r [E C]]]]]].
  exists a, t, r. rewrite E in *. split; [exact A|]. split; [reflexivity|]. split.
  - eapply Forall_impl; [|exact F]. intros x X. apply lacks_false. apply negb_true_iff in X. exact X.
  - destruct C as [C|C]; [left|right; exact C]. apply lacks_true. apply negb_false_iff in C. exact C.
Qed.

(** One mode: if it is reported, a nearest state exists. *)
Lemma land_bit x b : N.land x (2 ^ b) = (2 ^ b)%N <-> N.testbit x b = true.
Proof.
  split; intros H.
  - assert (T : N.testbit (N.land x (2 ^ b)) b = true) by (rewrite H; apply N.pow2_bits_true).
    rewrite N.land_spec in T. apply andb_prop in T. apply T.
  - apply N.bits_inj. intros i. rewrite N.land_spec. destruct (N.eq_dec i b) as [->|E].
    + rewrite H, N.pow2_bits_true. reflexivity.
    + rewrite N.pow2_bits_false by congruence. apply andb_false_r.
Qed.
Lemma nearest {A} (P : A -> Prop) (D : forall x, P x \/ ~ P x) l : (exists x, In x l /\ P x) ->
  exists a x r, l = a ++ x :: r /\ P x /\ Forall (fun y => ~ P y) a.
Proof.
  induction l as [|y l IH]; intros [x [I H]]; [destruct I|]. destruct (D y) as [Y|Y].
  - exists [], y, l. split; [reflexivity|]. split; [exact Y|constructor].
  - destruct IH as [a [z [r [E [Z F]]]]].
    + destruct I as [->|I]; [contradiction|]. exists x. auto.
    + exists (y :: a), z, r. split; [rewrite E; reflexivity|]. split; [exact Z|constructor; assumption].
Qed.
Lemma transparent_state b s : supported (modes s) -> inTransparentMode (2 ^ b) s = true ->
  exists a t r, modes s = a ++ t :: r /\ has_modes (2 ^ b) t /\ Forall (fun x => ~ has_modes (2 ^ b) x) a.
Proof.
  intros S T. unfold inTransparentMode in T. destruct (modes s) as [|t0 r0] eqn:M; [discriminate T|].
  apply N.eqb_eq, land_bit in T. destruct (S [] t0 r0 eq_refl b T) as [u [U1 U2]].
  apply (nearest (has_modes (2 ^ b))).
  - intros x. unfold has_modes. destruct (N.eq_dec (N.land (flags x) (2 ^ b)) (2 ^ b)); [left|right]; assumption.
  - exists u. split; [exact U1|]. apply land_bit, U2.
Qed.

(** * The tags *)
Definition tag (t : otok) := (o_type t, o_cat t).
Lemma out_push ty k x w s : guessing s = 0 -> map tag (output (pushToken ty k x w s)) = map tag (output s) ++ [(ty, k)].
Proof.
  intros G. unfold pushToken. rewrite G. cbn [Nat.ltb Nat.leb]. unfold output, set_output. cbn.
  destruct (inskip s) eqn:I; cbn; rewrite ?I, map_app; reflexivity.
Qed.
Lemma out_note_if b f s : output (note_if b f s) = output s.
Proof. destruct b; reflexivity. Qed.
Lemma out_modes l s : output (set_modes l s) = output s.
Proof. reflexivity. Qed.
Lemma g_note_if b f s : guessing (note_if b f s) = guessing s.
Proof. destruct b; reflexivity. Qed.

Definition no_reissue (t : mstate) : Prop := N.land (flags t) MODE_ISSUE_EMPTY_AT_POP = 0%N.

Lemma end_tag s t r o e oo : guessing s = 0 -> modes s = t :: r -> opened t = (o, e) :: oo -> no_reissue t ->
  map tag (output (endElement s)) = map tag (output s) ++ [(TE e, Kend)] /\ modes (endElement s) = with_opened oo t :: r.
Proof.
  intros G M O Nr. unfold endElement. rewrite out_note_if, modes_note_if. unfold end_element.
  rewrite M, O, Nr. cbn [N.eqb]. rewrite out_modes, out_push; [|rewrite !g_note_if; exact G].
  rewrite !out_note_if. split; reflexivity.
Qed.
Lemma g_end s : guessing (endElement s) = guessing s.
Proof. apply (calm_g _ _ (calm_end s)). Qed.
Lemma end_tags : forall n s t r, guessing s = 0 -> modes s = t :: r -> no_reissue t -> length (opened t) = n ->
  map tag (output (Nat.iter n endElement s)) = map tag (output s) ++ map (fun x => (TE (snd x), Kend)) (opened t) /\
  guessing (Nat.iter n endElement s) = 0.
Proof.
  induction n as [|n IH]; intros s t r G M Nr L.
  - destruct (opened t); [|discriminate L]. cbn. rewrite app_nil_r. auto.
  - destruct (opened t) as [|[o e] oo] eqn:O; [discriminate L|]. cbn in L. injection L as L.
    rewrite iter_S. destruct (end_tag s t r o e oo G M O Nr) as [E1 E2].
    destruct (IH (endElement s) (with_opened oo t) r) as [F1 F2]; [rewrite g_end; exact G|exact E2|exact Nr|exact L|].
    split; [|exact F2]. rewrite F1, E1, <- app_assoc. reflexivity.
Qed.
Lemma pop_tags s t r : guessing s = 0 -> modes s = t :: r -> no_reissue t ->
  map tag (output (popMode s)) = map tag (output s) ++ map (fun x => (TE (snd x), Kend)) (opened t) /\
  guessing (popMode s) = 0.
Proof.
  intros G M Nr. unfold popMode. cbn [output set_modes guessing].
  assert (T : top_open s = length (opened t)) by (unfold top_open; rewrite M; reflexivity). rewrite T.
  exact (end_tags _ s t r G M Nr eq_refl).
Qed.
Lemma open_types_cons t l : open_types (t :: l) = map snd (opened t) ++ open_types l.
Proof. reflexivity. Qed.
Lemma while_tags c c' n : forall s a l,
  (forall s t r, modes s = t :: r -> c' s = c t) -> size s <= n -> guessing s = 0 -> Forall no_reissue a ->
  modes s = a ++ l -> down c (modes s) = l -> Forall (fun x => c x = true) a ->
  map tag (output (end_while n c' s)) = map tag (output s) ++ map (fun e => (TE e, Kend)) (open_types a).
Proof.
  induction n as [|n IH]; intros s a l Q L G Na M D Fa.
  - unfold size in L. destruct (modes s) as [|x y] eqn:E; [|cbn in L; lia].
    destruct a; [|discriminate M]. cbn. rewrite app_nil_r. reflexivity.
  - cbn [end_while]. destruct a as [|t a].
    + cbn [app] in M. cbn [open_types map concat]. rewrite app_nil_r.
      destruct ((1 <? size s) && c' s) eqn:C; [|reflexivity]. exfalso.
      apply andb_prop in C. destruct C as [C1 C2]. unfold size in C1. rewrite M in *. destruct l as [|t [|u r]]; try discriminate C1.
      rewrite (Q s t (u :: r) M) in C2. cbn [down] in D. rewrite C2 in D.
      pose proof (down_spec c (u :: r)) as X. destruct X as [b [[X1 _] _]]; [discriminate|].
      cbn [down] in X1, D. rewrite D in X1. apply (f_equal (@length _)) in X1. rewrite app_length in X1. cbn in X1. lia.
    + cbn [app] in M. inversion Fa as [|? ? Ft Fa']; subst. inversion Na as [|? ? Nt Na']; subst.
      destruct (a ++ down c (modes s)) as [|u r] eqn:E.
      { exfalso. apply app_eq_nil in E. destruct E as [_ E]. rewrite M in E. cbn in E. discriminate E. }
      unfold size in *. rewrite M in *. cbn [length] in *. change (1 <? S (S (length r))) with true. cbn [andb].
      rewrite (Q s t (u :: r) M), Ft.
      destruct (pop_tags s t (u :: r) G M Nt) as [P1 P2].
      assert (M2 : modes (popMode s) = u :: r) by (rewrite tl_popMode, M; reflexivity).
      rewrite (IH (popMode s) a (down c (t :: u :: r))).
      * rewrite P1, open_types_cons, <- app_assoc, map_app, map_map. reflexivity.
      * exact Q.
      * unfold size. rewrite M2. cbn. lia.
      * exact P2.
      * exact Na'.
      * rewrite M2. symmetry. exact E.
      * rewrite M2. change (down c (t :: u :: r)) with (if c t then down c (u :: r) else t :: u :: r). rewrite Ft. reflexivity.
      * exact Fa'.
Qed.
Lemma unwind_tags m s a t r :
  modes s = a ++ t :: r -> inTransparentMode m s = true -> Forall (fun x => ~ has_modes m x) a -> has_modes m t ->
  guessing s = 0 -> Forall no_reissue a ->
  map tag (output (endDownToMode m s)) = map tag (output s) ++ map (fun e => (TE e, Kend)) (open_types a).
Proof.
  intros M T F H G Na. unfold endDownToMode. rewrite T.
  assert (F' : Forall (fun x => lacks m x = true) a) by (eapply Forall_impl; [|exact F]; intros x; apply lacks_true).
  apply (while_tags (lacks m)) with (l := t :: r); try assumption.
  - apply cond_lacks.
  - apply le_n.
  - rewrite M. apply down_at; [exact F'|apply lacks_false, H].
Qed.
