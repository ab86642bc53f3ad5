(** C09: tags are nested. *)
From Verif Require Import Base Parser_Model Parser_Spec Parser_Proofs Parser_Proofs2 Parser_Proofs3
  Parser_View Parser_View2 Parser_View3 Parser_View4 Parser_View5.
From Coq Require Import Permutation.

Fixpoint nest (l : list otok) (k : list nat) : option (list nat) :=
  match l with
  | [] => Some k
  | t :: r =>
      match o_cat t with
      | Kstart => nest r (o_id t :: k)
      | Kend => match k with
                | n :: k' => if ends t n then nest r k' else None
                | [] => None
                end
      | _ => nest r k
      end
  end.

Lemma nest_app a : forall b k, nest (a ++ b) k = match nest a k with Some k' => nest b k' | None => None end.
Proof.
  induction a as [|t a IH]; intros b k; [reflexivity|]. cbn. destruct (o_cat t); try apply IH.
  destruct k as [|n k]; [reflexivity|]. destruct (ends t _); [apply IH|reflexivity].
Qed.
Lemma nest_frame l : forall k k' z, nest l k = Some k' -> nest l (k ++ z) = Some (k' ++ z).
Proof.
  induction l as [|t l IH]; intros k k' z H; cbn in *; [injection H as ->; reflexivity|].
  destruct (o_cat t); try (apply IH, H).
  - apply (IH (o_id t :: k)), H.
  - destruct k as [|n k]; [discriminate H|]. cbn. destruct (ends t _); [apply IH, H|discriminate H].
Qed.
Lemma nest_neutral u k : neutral u -> nest [u] k = Some k.
Proof. intros [[N|N] _]; cbn; rewrite N; reflexivity. Qed.
Lemma nest_retype n ty l : forall k, nest (retype1 n ty l) k = nest l k.
Proof.
  induction l as [|t l IH]; intros k; [reflexivity|]. cbn [retype1 map nest].
  assert (E1 : o_cat (if o_id t =? n then retyped ty t else t) = o_cat t) by (destruct (_ =? _); reflexivity).
  assert (E2 : o_of (if o_id t =? n then retyped ty t else t) = o_of t) by (destruct (_ =? _); reflexivity).
  assert (E3 : o_id (if o_id t =? n then retyped ty t else t) = o_id t) by (destruct (_ =? _); reflexivity).
  unfold ends. rewrite E1, E2, E3. fold (retype1 n ty l). destruct (o_cat t); try apply IH.
  destruct k as [|m k]; [reflexivity|].
  destruct (o_of t) as [j|]; [|reflexivity]. destruct (j =? m); [apply IH|reflexivity].
Qed.

(** What is below and still there at the end was never touched. *)
Lemma nest_in l : forall k k' n, nest l k = Some k' -> In n k' -> In n k \/ In n (ids l).
Proof.
  induction l as [|t l IH]; intros k k' n H I; cbn in *; [injection H as ->; auto|].
  destruct (o_cat t).
  - destruct (IH _ _ _ H I); auto.
  - destruct (IH _ _ _ H I) as [[X|X]|X]; auto.
  - destruct k as [|m k]; [discriminate H|]. destruct (ends t _); [|discriminate H].
    destruct (IH _ _ _ H I); cbn; auto.
  - destruct (IH _ _ _ H I); auto.
Qed.
Lemma nest_below l : forall a z k', nest l (a ++ z) = Some k' -> NoDup (a ++ z) ->
  (forall n, In n z -> In n k') -> (forall n, In n (ids l) -> ~ In n (a ++ z)) -> NoDup (ids l) ->
  exists a', nest l a = Some a' /\ k' = a' ++ z.
Proof.
  induction l as [|t l IH]; intros a z k' H N Z D Nl; cbn in *.
  { injection H as <-. exists a. auto. }
  inversion Nl as [|? ? Nt Nr]; subst.
  destruct (o_cat t).
  - apply (IH a z k' H N Z); [|exact Nr]. intros n X. apply D. right. exact X.
  - apply (IH (o_id t :: a) z k' H); [|exact Z| |exact Nr].
    + cbn. constructor; [|exact N]. apply D. left. reflexivity.
    + intros n X [Y|Y]; [subst n; apply Nt, X|]. apply (D n); [right; exact X|exact Y].
  - destruct a as [|m a].
    + exfalso. destruct z as [|m z]; [discriminate H|]. cbn in H.
      destruct (ends t _); [|discriminate H].
      cbn in N. inversion N as [|? ? N1 N2]; subst.
      destruct (nest_in l z k' m H (Z m (or_introl eq_refl))) as [X|X]; [apply N1, X|].
      apply (D m); [right; exact X|left; reflexivity].
    + cbn in H. destruct (ends t _); [|discriminate H].
      cbn in N. inversion N as [|? ? N1 N2]; subst.
      destruct (IH a z k' H N2 Z) as [a' A]; [|exact Nr|exists a'; exact A].
      intros n X Y. apply (D n); [right; exact X|right; exact Y].
  - apply (IH a z k' H N Z); [|exact Nr]. intros n X. apply D. right. exact X.
Qed.

(** Skipped tokens that close only what they open leave what was open. *)
Lemma nest_local l0 : forall l k k', nest l k = Some k' ->
  (forall u n, In u l -> o_cat u = Kend -> o_of u = Some n -> In n (ids l0)) ->
  forall a z, k = a ++ z -> (forall n, In n z -> ~ In n (ids l0)) ->
  exists a', k' = a' ++ z.
Proof.
  induction l as [|t l IH]; intros k k' H S a z -> D; cbn in H.
  { injection H as <-. exists a. reflexivity. }
  assert (S' : forall u n, In u l -> o_cat u = Kend -> o_of u = Some n -> In n (ids l0)).
  { intros u n X. apply S. right. exact X. }
  destruct (o_cat t) eqn:C.
  - apply (IH _ _ H S' a z eq_refl D).
  - apply (IH _ _ H S' (o_id t :: a) z eq_refl D).
  - destruct (a ++ z) as [|m k] eqn:E; [discriminate H|].
    unfold ends in H. destruct (o_of t) as [j|] eqn:O; [|discriminate H]. destruct (j =? m) eqn:Q; [|discriminate H].
    apply Nat.eqb_eq in Q. subst j.
    destruct a as [|m' a].
    + exfalso. cbn in E. subst z. apply (D m); [left; reflexivity|].
      apply (S t m); [left; reflexivity|exact C|exact O].
    + cbn in E. injection E as -> <-. apply (IH _ _ H S' a z eq_refl D).
  - apply (IH _ _ H S' a z eq_refl D).
Qed.

Lemma not_stray l : stray l = false ->
  forall u n, In u l -> o_cat u = Kend -> o_of u = Some n -> In n (ids l).
Proof.
  intros H u n I C O. unfold stray in H.
  destruct (existsb (fun t => o_id t =? n) l) eqn:E.
  - apply existsb_exists in E. destruct E as [t [T1 T2]]. apply Nat.eqb_eq in T2. subst n. apply in_map, T1.
  - exfalso. assert (X : existsb (fun u => match o_cat u, o_of u with
       | Kend, Some n => negb (existsb (fun t => o_id t =? n) l) | _, _ => false end) l = true).
    { apply existsb_exists. exists u. split; [exact I|]. rewrite C, O, E. reflexivity. }
    rewrite X in H. discriminate H.
Qed.

Definition base v := match vr v with None => [] | Some r => ol r end.
Record L (v : view) : Prop :=
  { l_now : exists c, nest (vf v) (base v) = Some (c ++ map fst (ve v)) /\ nest (vb v) c = Some (vc v) /\
      (forall n, In n c -> In n (ids (vf v)));
    l_out : forall r, vr v = Some r ->
      (exists c, nest (oz r) [] = Some (c ++ ol r) /\ nest (oy r) c = Some [] /\
                 (forall n, In n c -> In n (ids (oz r)))) /\
      on r <= vs v /\ (forall n, In n (map fst (ve v)) -> In n (ol r) \/ on r <= n) /\
      (forall n, In n (vc v) -> on r <= n) /\
      (forall n, In n (ol r) -> In n (ids (oz r))) /\ NoDup (ol r) }.

Lemma nodup_mid {A} (a b c : list A) : NoDup (a ++ b ++ c) -> NoDup (b ++ c).
Proof. induction a as [|x a IH]; intros N; [exact N|]. inversion N; auto. Qed.
Lemma nodup_suffix {A} (a b : list A) : NoDup (a ++ b) -> NoDup b.
Proof. induction a as [|x a IH]; intros N; [exact N|]. inversion N; auto. Qed.
Lemma nodup_disjoint {A} (a b : list A) x : NoDup (a ++ b) -> In x a -> ~ In x b.
Proof.
  induction a as [|y a IH]; intros N I J; [destruct I|]. inversion N as [|? ? N1 N2]; subst.
  destruct I as [->|I]; [apply N1, in_or_app; right; exact J|exact (IH N2 I J)].
Qed.

Lemma U_sides v : U v -> NoDup (ids (vf v) ++ ids (vb v)).
Proof.
  intros H. pose proof (u_ids _ H) as N. unfold all in N. unfold ids in N. rewrite !map_app in N.
  induction (map o_id (rest v)) as [|x l IH]; [exact N|]. apply IH. inversion N; assumption.
Qed.

(** With no comment open nor closing among the skipped tokens, nothing but elements is open. *)
Lemma quiet_none v : U v -> L v -> quiet_if v = None ->
  vc v = [] /\ nest (vf v) (base v) = Some (map fst (ve v)) /\ nest (vb v) [] = Some [].
Proof.
  intros H [[c [C1 [C2 C3]]] _] Q. unfold quiet_if in Q. destruct (vc v) as [|x l]; [|discriminate Q].
  destruct (stray (vb v)) eqn:S; [discriminate Q|].
  destruct (nest_local (vb v) (vb v) c [] C2 (not_stray _ S) [] c eq_refl) as [a' E].
  { intros n I J. apply (nodup_disjoint _ _ n (U_sides v H) (C3 n I) J). }
  symmetry in E. apply app_eq_nil in E. destruct E as [_ ->]. auto.
Qed.

Lemma ids_snoc l u : ids (l ++ [u]) = ids l ++ [o_id u].
Proof. unfold ids. rewrite map_app. reflexivity. Qed.

Lemma L_step v v' : vstep None v v' -> U v -> L v -> L v'.
Proof.
  intros S H Lv. remember None as f eqn:F.
  destruct S as [v|v u N I Q T|v u N I Q T|v u N I|v u T N Q I E1 E2 E3 E4|v u T N Q I|v e
    |v n e r E|v e|v n e r E|v e|v c|v n c r E|v c|v n r E|v n e I|v t u T1 T2 C1 C2 O|v v' A1 A2 A3 R E1 E2 E3
    |v E1 E2|v f E1 E2|v r f E1 E2]; try discriminate F.
  - (* flush *)
    destruct Lv as [[c [C1 [C2 C3]]] Lo]. constructor.
    + exists (vc v). cbn [vf vb ve vc vr]. unfold base. cbn [vr]. fold (base v).
      split; [|split; [reflexivity|]].
      * rewrite nest_app, C1. apply nest_frame, C2.
      * intros n X. unfold ids. rewrite map_app. apply in_or_app.
        destruct (nest_in _ _ _ _ C2 X) as [Y|Y]; [left; apply C3, Y|right; exact Y].
    + cbn [vr ve vc vs]. exact Lo.
  - destruct Lv as [[c [C1 [C2 C3]]] Lo]. constructor.
    + exists c. unfold front, base. cbn. fold (base v). rewrite nest_app, C1. rewrite nest_neutral by exact N.
      split; [reflexivity|]. split; [exact C2|]. intros n X. rewrite ids_snoc. apply in_or_app. left. apply C3, X.
    + cbn. intros r X. destruct (Lo r X) as [P1 [P2 P3]]. split; [exact P1|]. split; [lia|exact P3].
  - destruct Lv as [[c [C1 [C2 C3]]] Lo]. constructor.
    + exists c. unfold back, base. cbn. fold (base v).
      split; [exact C1|]. split; [rewrite nest_app, C2; apply nest_neutral, N|exact C3].
    + cbn. intros r X. destruct (Lo r X) as [P1 [P2 P3]]. split; [exact P1|]. split; [lia|exact P3].
  - destruct Lv as [[c [C1 [C2 C3]]] Lo]. constructor.
    + exists c. unfold front, base. cbn. fold (base v). rewrite nest_app, C1. rewrite nest_neutral by exact N.
      split; [reflexivity|]. split; [exact C2|]. intros n X. rewrite ids_snoc. apply in_or_app. left. apply C3, X.
    + cbn. intros r X. destruct (Lo r X) as [P1 [P2 P3]]. split; [exact P1|]. split; [lia|exact P3].
  - (* open *)
    destruct (quiet_none v H Lv F) as [V1 [V2 V3]]. destruct Lv as [_ Lo]. constructor.
    + exists []. unfold front, base. cbn. fold (base v). rewrite nest_app, V2. cbn. rewrite V1.
      split; [reflexivity|]. split; [exact V3|]. intros n [].
    + cbn. intros r X. destruct (Lo r X) as [P1 [P2 [P3 P4]]]. split; [exact P1|]. split; [lia|].
      split; [|exact P4]. intros n [<-|Y]; [right; exact P2|apply P3, Y].
  - (* close *)
    destruct (quiet_none v H Lv F) as [V1 [V2 V3]]. destruct Lv as [_ Lo]. constructor.
    + exists []. unfold front, base. cbn. fold (base v). rewrite nest_app, V2, E. cbn. unfold ends. cbn. rewrite Nat.eqb_refl, V1.
      split; [reflexivity|]. split; [exact V3|]. intros m [].
    + cbn. intros r0 X. destruct (Lo r0 X) as [P1 [P2 [P3 P4]]]. split; [exact P1|]. split; [lia|].
      split; [|exact P4]. intros m Y. apply P3. rewrite E. right. exact Y.
  - (* pair *)
    destruct (quiet_none v H Lv F) as [V1 [V2 V3]]. destruct Lv as [_ Lo]. constructor.
    + exists []. unfold front, base. cbn. fold (base v). rewrite !nest_app, V2. cbn. unfold ends. cbn. rewrite Nat.eqb_refl, V1.
      split; [reflexivity|]. split; [exact V3|]. intros m [].
    + cbn. intros r0 X. destruct (Lo r0 X) as [P1 [P2 [P3 P4]]]. split; [exact P1|]. split; [lia|].
      split; assumption.
  - (* comment *)
    destruct Lv as [[d [C1 [C2 C3]]] Lo]. constructor.
    + exists d. unfold back, base. cbn. fold (base v). split; [exact C1|]. split; [|exact C3].
      rewrite nest_app, C2. reflexivity.
    + cbn. intros r X. destruct (Lo r X) as [P1 [P2 [P3 [P4 P5]]]]. split; [exact P1|]. split; [lia|].
      split; [exact P3|]. split; [|exact P5]. intros n [<-|Y]; [exact P2|apply P4, Y].
  - destruct Lv as [[d [C1 [C2 C3]]] Lo]. constructor.
    + exists d. unfold back, base. cbn. fold (base v). split; [exact C1|]. split; [|exact C3].
      rewrite nest_app, C2, E. cbn. unfold ends. cbn. rewrite Nat.eqb_refl. reflexivity.
    + cbn. intros r0 X. destruct (Lo r0 X) as [P1 [P2 [P3 [P4 P5]]]]. split; [exact P1|]. split; [lia|].
      split; [exact P3|]. split; [|exact P5]. intros m Y. apply P4. rewrite E. right. exact Y.
  - (* retype *)
    assert (M : map fst (map (fun x => if fst x =? n then (fst x, e) else x) (ve v)) = map fst (ve v)).
    { rewrite map_map. apply map_ext. intros x. destruct (_ =? _); reflexivity. }
    destruct Lv as [[d [C1 [C2 C3]]] Lo]. constructor.
    + exists d. cbn [vf vb ve vc with_e retype_view]. rewrite M, !nest_retype.
      replace (base (with_e (retype_view n (TE e) v) _)) with (base v).
      2: { unfold base. cbn. destruct (vr v); reflexivity. }
      split; [exact C1|]. split; [exact C2|]. intros m X. rewrite retype1_map, ids_map by apply retyping_keep. apply C3, X.
    + cbn [vr ve vc vs with_e retype_view]. rewrite M. intros r X. destruct (vr v) as [r0|]; [|discriminate X].
      injection X as <-. cbn [oz oy ol on retype_outer]. destruct (Lo r0 eq_refl) as [[c [D1 [D2 D3]]] P].
      rewrite (retype1_map _ _ (oz r0)), ids_map by apply retyping_keep. rewrite <- retype1_map.
      split; [|exact P]. exists c. rewrite !nest_retype. auto.
  - destruct Lv as [[d [C1' [C2' C3']]] Lo]. constructor.
    + exists d. cbn [vf vb ve vc with_e retype_view]. rewrite !nest_retype.
      replace (base (retype_view _ _ _)) with (base v).
      2: { unfold base. cbn. destruct (vr v); reflexivity. }
      split; [exact C1'|]. split; [exact C2'|]. intros m X. rewrite !retype1_map, !ids_map by apply retyping_keep. apply C3', X.
    + cbn [vr ve vc vs with_e retype_view]. intros r X. destruct (vr v) as [r0|]; [|discriminate X].
      cbn in X. injection X as <-. cbn [oz oy ol on retype_outer]. destruct (Lo r0 eq_refl) as [[c [D1 [D2 D3]]] P].
      assert (Ei : ids (retype1 (o_id u) (TE Enop) (retype1 (o_id t) (TE Enop) (oz r0))) = ids (oz r0)).
      { rewrite !retype1_map, !ids_map by apply retyping_keep. reflexivity. }
      rewrite Ei. split; [|exact P]. exists c. rewrite !nest_retype. auto.
  - (* enter *)
    pose proof (u_live _ H) as Nl. unfold live in Nl.
    destruct Lv as [[d [C1 [C2 C3]]] Lo]. rewrite E2 in *. constructor.
    + exists []. unfold base. cbn. split; [reflexivity|]. split; [reflexivity|]. intros n [].
    + cbn. intros r X. injection X as <-. cbn [oz oy ol on].
      assert (Bs : base v = []) by (unfold base; rewrite E1; reflexivity). rewrite Bs in C1.
      split; [exists d; auto|]. split; [lia|]. split; [auto|]. split; [intros n []|]. split.
      * intros n X. destruct (nest_in _ _ _ n C1) as [Y|Y]; [apply in_or_app; right; exact X|destruct Y|exact Y].
      * rewrite app_nil_r in Nl. exact Nl.
  - (* leave *)
    destruct E2 as [E2|[E2 [E2'|[_ E3]]]]; [congruence|congruence|].
    pose proof (u_live _ H) as Nl. unfold live in Nl. pose proof (u_ids _ H) as Ni.
    destruct Lv as [[d [C1 [C2 C3]]] Lo].
    destruct (Lo r E1) as [[c [D1 [D2 D3]]] [P2 [P3 [P4 [P5 P6]]]]].
    assert (Bs : base v = ol r) by (unfold base; rewrite E1; reflexivity). rewrite Bs in C1.
    assert (Vc : vc v = []).
    { destruct (vc v) as [|n l] eqn:Q; [reflexivity|exfalso].
      assert (n < on r) by (apply E2; unfold live; rewrite Q; apply in_or_app; right; left; reflexivity).
      assert (on r <= n) by (apply P4; left; reflexivity). lia. }
    assert (Nd : NoDup (ids (oz r) ++ ids (vf v))).
    { rewrite (all_in v r E1) in Ni. unfold ids in *. rewrite !map_app in Ni. rewrite <- !app_assoc in Ni.
      clear -Ni. revert Ni. generalize (map o_id (oz r)) as x, (map o_id (oy r)) as y, (map o_id (vf v)) as z, (map o_id (vb v)) as w.
      intros x y z w Ni. induction x as [|n x IH].
      - cbn in *. induction y as [|m y IH]; [exact (nodup_prefix z w Ni)|]. apply IH. inversion Ni; assumption.
      - cbn in *. inversion Ni as [|? ? X Y]; subst. constructor; [|apply IH, Y].
        intros Z. apply X. rewrite !in_app_iff in *. tauto. }
    destruct (nest_below (vf v) [] (ol r) _ C1) as [a' [A1 A2]].
    { exact P6. }
    { intros n X. apply in_or_app. right. apply E3, X. }
    { intros n X Y. cbn in Y. apply (nodup_disjoint _ _ n Nd (P5 n Y) X). }
    { exact (nodup_suffix _ _ Nd). }
    (* the elements open now are those open on entry *)
    assert (Lv : map fst (ve v) = ol r).
    { assert (Ne : NoDup (map fst (ve v))) by (apply nodup_prefix in Nl; exact Nl).
      assert (X : forall x, In x (map fst (ve v)) -> In x (ol r)).
      { intros x X. destruct (P3 x X) as [Y|Y]; [exact Y|]. exfalso.
        assert (x < on r) by (apply E2; unfold live; apply in_or_app; left; exact X). lia. }
      assert (Le : length (map fst (ve v)) = length (ol r)).
      { apply Nat.le_antisymm; apply NoDup_incl_length; [exact Ne|exact X|exact P6|exact E3]. }
      assert (Q : forall (p q x y : list nat), p ++ x = q ++ y -> length x = length y -> x = y).
      { intros p q x y Z W. assert (Lp : length p = length q).
        { apply (f_equal (@length _)) in Z. rewrite !app_length in Z. lia. }
        clear W. revert q Z Lp. induction p as [|? p IH]; intros [|? q] Z Lp; cbn in *; try lia; [exact Z|].
        injection Z as _ Z. apply (IH q Z). lia. }
      exact (Q _ _ _ _ A2 Le). }
    assert (Ed : d = a').
    { rewrite Lv in A2. apply app_inv_tail in A2. exact A2. }
    subst a'. constructor.
    + exists c. unfold base. cbn. rewrite Lv, Vc. split; [exact D1|]. split; [|exact D3].
      rewrite nest_app, D2. cbv iota. rewrite nest_app, A1. rewrite Vc in C2. exact C2.
    + discriminate.
Qed.

Lemma L_first : L first_view.
Proof.
  constructor; [|discriminate]. exists []. split; [reflexivity|]. split; [reflexivity|]. intros n [].
Qed.
Lemma L_run (P : fault -> Prop) v v' : (forall f, ~ P f) -> vrun P v v' -> U v -> L v -> L v'.
Proof.
  intros N R. induction R as [|v1 v2 v3 f R IH St Q]; intros H A; [exact A|].
  destruct f as [f|]; [exfalso; apply (N f), Q; reflexivity|].
  eapply L_step; [exact St|eapply U_run; eassumption|auto].
Qed.

(** * What is delivered *)
Lemma follow_nest (vis : nat -> bool) l : forall k k', nest l k = Some k' ->
  (forall t, In t l -> o_cat t = Kstart -> vis (o_id t) = shown t) ->
  (forall t n, In t l -> o_cat t = Kend -> o_of t = Some n -> vis n = shown t) ->
  follow l (filter vis k) = Some (filter vis k').
Proof.
  induction l as [|t l IH]; intros k k' H S E; cbn in *; [injection H as ->; reflexivity|].
  assert (S' : forall t, In t l -> o_cat t = Kstart -> vis (o_id t) = shown t) by (intros u X; apply S; right; exact X).
  assert (E' : forall t n, In t l -> o_cat t = Kend -> o_of t = Some n -> vis n = shown t) by (intros u n X; apply E; right; exact X).
  destruct (o_cat t) eqn:C.
  - destruct (shown t); apply IH; assumption.
  - specialize (IH (o_id t :: k) k' H S' E'). cbn [filter] in IH. rewrite (S t (or_introl eq_refl) C) in IH.
    destruct (shown t); exact IH.
  - destruct k as [|n k]; [discriminate H|]. destruct (ends t n) eqn:Q; [|discriminate H].
    unfold ends in Q. destruct (o_of t) as [m|] eqn:O; [|discriminate Q]. apply Nat.eqb_eq in Q. subst m.
    cbn [filter]. rewrite (E t n (or_introl eq_refl) C O). destruct (shown t).
    + unfold ends. rewrite O, Nat.eqb_refl. apply IH; assumption.
    + apply IH; assumption.
  - destruct (shown t); apply IH; assumption.
Qed.

Lemma follow_count l : forall k k', follow l k = Some k' ->
  length k + count is_start l = length k' + count is_end l.
Proof.
  induction l as [|t l IH]; intros k k' H; cbn [follow] in H; [injection H as ->; unfold count; cbn; lia|].
  rewrite (cons_app t l), !count_app. unfold count at 1 3. cbn [filter].
  unfold is_start at 1. unfold is_end at 1. change (visible t) with (shown t).
  destruct (shown t); cbn [andb]; [|apply IH in H; cbn; lia].
  destruct (o_cat t); cbn.
  - apply IH in H. lia.
  - apply IH in H. cbn in H. lia.
  - destruct k as [|n k]; [discriminate H|]. destruct (ends t n); [|discriminate H]. apply IH in H. cbn. lia.
  - apply IH in H. lia.
Qed.

Lemma nest_prefix a b k k' : nest (a ++ b) k = Some k' -> exists m, nest a k = Some m.
Proof. rewrite nest_app. destruct (nest a k) as [m|]; [exists m; reflexivity|discriminate]. Qed.

Lemma L_all v : L v -> nest (all v) [] = Some (vc v ++ map fst (ve v)) \/ vr v <> None.
Proof.
  intros [[c [C1 [C2 _]]] _]. destruct (vr v) eqn:R; [right; discriminate|left].
  rewrite (all_bare v R), nest_app. unfold base in C1. rewrite R in C1. rewrite C1. apply nest_frame, C2.
Qed.
(** In preprocessor handling only what came before it is settled. *)
Lemma L_before v r : L v -> vr v = Some r -> exists k, nest (oz r) [] = Some k.
Proof. intros [_ O] R. destruct (O r R) as [[c [C _]] _]. eexists. exact C. Qed.

Lemma shown_visible t : shown t = visible t.
Proof. reflexivity. Qed.

Lemma nesting v u0 l b :
  all v = u0 :: l ++ b -> o_type u0 = TE Eunit -> vr v = None -> U v -> B v -> L v ->
  exists k, follow l [] = Some k.
Proof.
  intros A Q0 R H Bv Lv.
  destruct (L_all v Lv) as [N|N]; [|congruence].
  set (vis := fun n => existsb (fun t => (o_id t =? n) && match o_cat t with Kstart => shown t | _ => false end) (all v)).
  assert (Vs : forall t, In t (all v) -> o_cat t = Kstart -> vis (o_id t) = shown t).
  { intros t I C. unfold vis. destruct (shown t) eqn:S.
    - apply existsb_exists. exists t. split; [exact I|]. rewrite Nat.eqb_refl, C, S. reflexivity.
    - destruct (existsb _ (all v)) eqn:X; [|reflexivity]. exfalso.
      apply existsb_exists in X. destruct X as [w [W1 W2]]. apply andb_prop in W2. destruct W2 as [W2 W3].
      apply Nat.eqb_eq in W2. rewrite (same_id v w t H W1 I W2), C, S in W3. discriminate W3. }
  rewrite A in N. change (u0 :: l ++ b) with ((u0 :: l) ++ b) in N. apply nest_prefix in N. destruct N as [m N].
  assert (F : follow (u0 :: l) (filter vis []) = Some (filter vis m)).
  { apply (follow_nest vis (u0 :: l) [] m N).
    - intros t I. apply Vs. rewrite A. change (u0 :: l ++ b) with ((u0 :: l) ++ b). apply in_or_app. left. exact I.
    - intros t n I C O. apply in_split in I. destruct I as [a1 [a2 I]].
      destruct (b_order _ Bv a1 t (a2 ++ b)) as [w [W1 [W2 [W3 W4]]]].
      { rewrite A. change (u0 :: l ++ b) with ((u0 :: l) ++ b). rewrite I, <- app_assoc. reflexivity. }
      { exact C. }
      assert (n = o_id w) by congruence. subst n. rewrite Vs; [exact W4| |exact W2].
      rewrite A. change (u0 :: l ++ b) with ((u0 :: l) ++ b). rewrite I. apply in_or_app. left. apply in_or_app. left. exact W1. }
  cbn [filter follow] in F. unfold shown in F at 1. rewrite Q0 in F. exists (filter vis m). exact F.
Qed.

Lemma parse_top o rs src cs l e s : pull o rs cs (construct src) = (l, e, s) -> top_ok s.
Proof.
  intros P. destruct (construct_tb src) as [t [r [B0 [Q ->]]]].
  destruct (pull_front o rs cs _ _ _ _ _ _ (construct_top src) B0 P) as [_ [T _]]. exact T.
Qed.

Lemma stream_nested o rs src cs l e s :
  pull o rs cs (construct src) = (l, e, s) -> log s = [] ->
  (exists k, follow l [] = Some k) /\ (e = AtEof -> follow l [] = Some []).
Proof.
  intros P N. destruct (parse_run _ _ _ _ _ _ _ P) as [x [b [R [A E]]]].
  assert (N0 : forall f, ~ In f (log s)) by (rewrite N; intros f []).
  pose proof (U_run _ _ _ R U_first) as Uv.
  assert (Bv : B (look x s)).
  { assert (Nf : forall f, In f (log s) -> f = Fcomment \/ f = Fouter) by (intros f X; destruct (N0 f X)).
    exact (B_run _ _ _ Nf R U_first B_first). }
  assert (Lv : L (look x s)) by (exact (L_run _ _ _ N0 R U_first L_first)).
  assert (V : vr (look x s) = None).
  { pose proof (parse_top _ _ _ _ _ _ _ P) as T. unfold look. destruct (inskip s) eqn:I; [|reflexivity].
    exfalso. apply (N0 _ (T I)). }
  destruct (nesting (look x s) _ l b A eq_refl V Uv Bv Lv) as [k F].
  split; [exists k; exact F|]. intros Ea.
  assert (N1 : forall f, In f (log s) -> f = Fcomment \/ f = Fouter) by (intros f X; destruct (N0 f X)).
  destruct (stream_balance o rs src cs l e s P N1) as [_ G]. specialize (G Ea).
  assert (Kv : K (look x s)) by (exact (K_run _ _ _ (N0 _) (N0 _) R U_first K_first)).
  assert (Kl : forall t, In t l -> kind_ok t).
  { intros t X. apply Kv. rewrite A. right. apply in_or_app. left. exact X. }
  rewrite (opens_outputs l Kl), (closes_outputs l Kl) in G.
  pose proof (follow_count l [] k F) as C. cbn in C.
  assert (Z : length k = 0) by lia. destruct k; [exact F|discriminate Z].
Qed.
