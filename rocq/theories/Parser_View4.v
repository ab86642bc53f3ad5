(** C09: numbers of start and end tags. *)
From Verif Require Import Base Parser_Model Parser_Spec Parser_Proofs Parser_Proofs2 Parser_Proofs3
  Parser_View Parser_View2 Parser_View3.
From Coq Require Import Permutation.

Definition visible (t : otok) : bool :=
  match o_type t with TE Eunit => false | TE Enop => false | TE _ => true | _ => false end.

(** Every end tag has its start tag before it. *)
Definition ordered (l : list otok) : Prop :=
  forall a u c, l = a ++ u :: c -> o_cat u = Kend ->
  exists t, In t a /\ o_cat t = Kstart /\ o_of u = Some (o_id t) /\ visible t = visible u.
(** Before the end of file everything is closed. *)
Definition settled (l : list otok) : Prop :=
  forall a x c, l = a ++ x :: c -> o_type x = TEof ->
  forall t, In t a -> o_cat t = Kstart -> In (o_id t) (ended a).

Record B (v : view) : Prop :=
  { b_pos : forall n, In n (map fst (ve v)) ->
      In n (ids (vf v)) \/ exists r, vr v = Some r /\ In n (ids (oz r));
    b_on : forall r, vr v = Some r -> on r <= vs v /\ forall i, In i (ids (vf v ++ vb v)) -> on r <= i;
    b_type : forall n e, In (n, e) (ve v) -> forall t, In t (all v) -> o_id t = n -> o_type t = TE e;
    b_ctype : forall n, In n (vc v) -> forall t, In t (all v) -> o_id t = n -> visible t = true;
    b_ended : forall t, In t (all v) -> o_cat t = Kstart -> In (o_id t) (live v) \/ In (o_id t) (ended (all v));
    b_order : ordered (all v);
    b_once : NoDup (ended (all v));
    b_eofb : forall t, In t (vb v) -> o_type t <> TEof;
    b_eofr : forall r, vr v = Some r -> forall t, In t (oy r ++ vf v) -> o_type t <> TEof;
    b_eof : settled (all v) }.

Lemma split_insert {A} (x y : list A) (w u : A) a c : a ++ u :: c = x ++ w :: y ->
  (exists c', x = a ++ u :: c' /\ c = c' ++ w :: y) \/ (u = w /\ a = x /\ c = y) \/
  (exists a', y = a' ++ u :: c /\ a = x ++ w :: a').
Proof.
  revert x. induction a as [|z a IH]; intros [|z' x] E; cbn in E.
  - injection E as -> ->. right. left. auto.
  - injection E as -> ->. left. exists x. auto.
  - injection E as -> E. right. right. exists a. split; [symmetry; exact E|reflexivity].
  - injection E as -> E. destruct (IH x E) as [[c' [-> ->]]|[[-> [-> ->]]|[a' [-> ->]]]].
    + left. exists c'. auto.
    + right. left. auto.
    + right. right. exists a'. auto.
Qed.

Lemma ordered_ins x y u : ordered (x ++ y) ->
  (o_cat u = Kend -> exists t, In t x /\ o_cat t = Kstart /\ o_of u = Some (o_id t) /\ visible t = visible u) ->
  ordered (x ++ u :: y).
Proof.
  intros O H a w c E K. symmetry in E. apply split_insert in E.
  destruct E as [[c' [-> ->]]|[[-> [-> ->]]|[a' [-> ->]]]].
  - apply (O a w (c' ++ y)); [rewrite <- app_assoc; reflexivity|exact K].
  - apply H, K.
  - destruct (O (x ++ a') w c) as [t [T1 T2]]; [rewrite <- app_assoc; reflexivity|exact K|].
    exists t. split; [|exact T2]. apply in_app_or in T1. apply in_or_app.
    destruct T1 as [T1|T1]; [left|right; right]; exact T1.
Qed.

Lemma settled_ins x y u : settled (x ++ y) -> (forall t, In t y -> o_type t <> TEof) ->
  (o_type u = TEof -> forall t, In t x -> o_cat t = Kstart -> In (o_id t) (ended x)) ->
  settled (x ++ u :: y).
Proof.
  intros O N H a w c E K. symmetry in E. apply split_insert in E.
  destruct E as [[c' [-> ->]]|[[-> [-> ->]]|[a' [-> ->]]]].
  - apply (O a w (c' ++ y)); [rewrite <- app_assoc; reflexivity|exact K].
  - apply H, K.
  - exfalso. apply (N w); [apply in_or_app; right; left; reflexivity|exact K].
Qed.

Lemma map_split {A C} (g : A -> C) l a u c : map g l = a ++ u :: c ->
  exists a' u' c', l = a' ++ u' :: c' /\ a = map g a' /\ u = g u' /\ c = map g c'.
Proof.
  revert a. induction l as [|z l IH]; intros [|y a] E; cbn in E; try discriminate E.
  - injection E as <- <-. exists [], z, l. auto.
  - injection E as <- E. destruct (IH a E) as [a' [u' [c' [-> [-> [-> ->]]]]]].
    exists (z :: a'), u', c'. auto.
Qed.

Definition keep_untyped (g : otok -> otok) : Prop := forall t, untyped (g t) = untyped t.
Lemma keep_fields g t : keep_untyped g ->
  o_id (g t) = o_id t /\ o_cat (g t) = o_cat t /\ o_text (g t) = o_text t /\ o_of (g t) = o_of t.
Proof. intros H. specialize (H t). unfold untyped in H. injection H as A C D E. auto. Qed.
Lemma ended_keep g l : keep_untyped g -> ended (map g l) = ended l.
Proof.
  intros H. unfold ended. rewrite map_map. f_equal. apply map_ext. intros t. apply (keep_fields g t H).
Qed.

Lemma ordered_map g l : keep_untyped g -> ordered l ->
  (forall t u, In t l -> In u l -> o_cat t = Kstart -> o_cat u = Kend -> o_of u = Some (o_id t) ->
     visible t = visible u -> visible (g t) = visible (g u)) ->
  ordered (map g l).
Proof.
  intros G O V a u c E K. apply map_split in E. destruct E as [a' [u' [c' [-> [-> [-> ->]]]]]].
  destruct (keep_fields g u' G) as [_ [K1 [_ K2]]]. rewrite K1 in K.
  destruct (O a' u' c' eq_refl K) as [t [T1 [T2 [T3 T4]]]].
  destruct (keep_fields g t G) as [F1 [F2 _]].
  exists (g t). split; [apply in_map, T1|]. split; [congruence|]. split; [congruence|].
  apply V; try assumption; apply in_or_app; [left; exact T1|right; left; reflexivity].
Qed.

Lemma settled_map g l : keep_untyped g -> (forall t, o_type (g t) = TEof -> o_type t = TEof) ->
  settled l -> settled (map g l).
Proof.
  intros G N O a x c E K t T C. apply map_split in E. destruct E as [a' [x' [c' [-> [-> [-> ->]]]]]].
  rewrite ended_keep by exact G. apply in_map_iff in T. destruct T as [t' [<- T]].
  destruct (keep_fields g t' G) as [F1 [F2 _]]. rewrite F1. rewrite F2 in C.
  apply (O a' x' c' eq_refl (N _ K) t' T C).
Qed.

Lemma settled_same l l' : l' = l -> settled l -> settled l'.
Proof. intros ->. exact (fun H => H). Qed.

(** Pushing one token at the end of the output. *)
Record can_push (v : view) (x : list otok) (u : otok) : Prop :=
  { cp_id : o_id u = vs v;
    cp_end : o_cat u = Kend -> exists t, In t x /\ o_cat t = Kstart /\ o_of u = Some (o_id t) /\ visible t = visible u;
    cp_once : forall n, o_of u = Some n -> ~ In n (ended (all v));
    cp_eof : o_type u = TEof -> forall t, In t x -> o_cat t = Kstart -> In (o_id t) (ended x) }.

Lemma once_perm l l' u : Permutation l' (u :: l) -> NoDup (ended l) ->
  (forall n, o_of u = Some n -> ~ In n (ended l)) -> NoDup (ended l').
Proof.
  intros P N H. eapply Permutation_NoDup; [apply Permutation_sym, perm_ended, P|]. rewrite ended_cons.
  destruct (o_of u) as [n|]; [|exact N]. cbn. constructor; [apply H; reflexivity|exact N].
Qed.

Lemma ended_perm_in l l' u n : Permutation l' (u :: l) ->
  (In n (ended l') <-> o_of u = Some n \/ In n (ended l)).
Proof.
  intros P. assert (Q : Permutation (ended l') (one (o_of u) ++ ended l)).
  { rewrite <- ended_cons. apply perm_ended, P. }
  split; intros X.
  - eapply Permutation_in in X; [|exact Q]. apply in_app_or in X. destruct X as [X|X]; [left|right; exact X].
    destruct (o_of u); [|destruct X]. destruct X as [->|[]]. reflexivity.
  - eapply Permutation_in; [apply Permutation_sym, Q|]. apply in_or_app. destruct X as [->|X]; [left; left; reflexivity|right; exact X].
Qed.

Lemma B_push v v' x y u :
  U v -> B v -> all v = x ++ y -> all v' = x ++ u :: y -> (forall t, In t y -> o_type t <> TEof) ->
  can_push v x u -> vs v' = S (vs v) ->
  (vr v' = vr v /\ ((vf v' = vf v ++ [u] /\ vb v' = vb v) \/ (vf v' = vf v /\ vb v' = vb v ++ [u]))) ->
  (o_type u = TEof -> vr v = None /\ vf v' = vf v ++ [u]) ->
  (forall n e, In (n, e) (ve v') -> In (n, e) (ve v) \/ (n = vs v /\ o_type u = TE e /\ vf v' = vf v ++ [u])) ->
  (forall n, In n (vc v') -> In n (vc v) \/ (n = vs v /\ visible u = true)) ->
  (forall n, In n (live v) -> In n (live v') \/ o_of u = Some n) ->
  (o_cat u = Kstart -> In (vs v) (live v')) ->
  B v'.
Proof.
  intros H [P O T C E R N Eb Er Z] A A' Y [I L1 L2 L3] Sv [Vr Vf] Q X1 X2 X3 X4.
  assert (Pm : Permutation (all v') (u :: all v)) by (rewrite A, A'; apply Permutation_sym, Permutation_middle).
  constructor.
  - intros n D. apply in_map_iff in D. destruct D as [[n0 e] [<- D]]. cbn [fst].
    destruct (X1 _ _ D) as [D'|[-> [_ F]]].
    + destruct (P n0) as [G|[r [G1 G2]]]; [apply in_map_iff; exists (n0, e); auto| |right; exists r; split; [congruence|exact G2]].
      left. destruct Vf as [[-> _]|[-> _]]; [rewrite ids_app; apply in_or_app; left|]; exact G.
    + left. rewrite F, ids_app. apply in_or_app. right. left. exact I.
  - intros r G. rewrite Vr in G. destruct (O r G) as [O1 O2]. split; [lia|].
    intros i J. assert (K : In i (ids (vf v ++ vb v)) \/ i = vs v).
    { destruct Vf as [[F1 F2]|[F1 F2]]; rewrite F1, F2, !ids_app, !in_app_iff in J; rewrite ids_app, in_app_iff;
        cbn in J; rewrite I in J; intuition. }
    destruct K as [K|K]; [apply O2, K|lia].
  - intros n e D t F G. eapply Permutation_in in F; [|exact Pm].
    destruct (X1 _ _ D) as [D'|[-> [D' _]]].
    + destruct F as [<-|F]; [|apply (T n e D' t F G)].
      exfalso. assert (n < vs v); [|lia]. apply (live_lt v n H). apply in_or_app. left. apply in_map_iff. exists (n, e). auto.
    + destruct F as [<-|F]; [exact D'|]. exfalso. assert (o_id t < vs v); [|lia]. apply (u_lt _ H), in_map, F.
  - intros n D t F G. eapply Permutation_in in F; [|exact Pm].
    destruct (X2 _ D) as [D'|[-> D']].
    + destruct F as [<-|F]; [|apply (C n D' t F G)].
      exfalso. assert (n < vs v); [|lia]. apply (live_lt v n H). apply in_or_app. right. exact D'.
    + destruct F as [<-|F]; [exact D'|]. exfalso. assert (o_id t < vs v); [|lia]. apply (u_lt _ H), in_map, F.
  - intros t F G. eapply Permutation_in in F; [|exact Pm]. rewrite (ended_perm_in _ _ _ _ Pm).
    destruct F as [<-|F]; [left; rewrite I; apply X4, G|].
    destruct (E t F G) as [J|J]; [|auto]. destruct (X3 _ J); auto.
  - rewrite A'. apply ordered_ins; [rewrite <- A; exact R|exact L1].
  - eapply once_perm; [exact Pm|exact N|exact L2].
  - intros t F. destruct Vf as [[F1 F2]|[F1 F2]]; rewrite F2 in F; [apply Eb, F|].
    apply in_app_or in F. destruct F as [F|[<-|[]]]; [apply Eb, F|].
    intros J. destruct (Q J) as [_ K]. rewrite F1 in K.
    apply (f_equal (@length _)) in K. rewrite app_length in K. cbn in K. lia.
  - intros r G t F. rewrite Vr in G. apply in_app_or in F.
    destruct F as [F|F]; [apply (Er r G), in_or_app; left; exact F|].
    destruct Vf as [[F1 F2]|[F1 F2]]; rewrite F1 in F; [|apply (Er r G), in_or_app; right; exact F].
    apply in_app_or in F. destruct F as [F|[<-|[]]]; [apply (Er r G), in_or_app; right; exact F|].
    intros J. destruct (Q J) as [K _]. congruence.
  - rewrite A'. apply settled_ins; [rewrite <- A; exact Z|exact Y|exact L3].
Qed.

Lemma all_front_eq v : all v = (rest v ++ vf v) ++ vb v.
Proof. unfold all. apply app_assoc. Qed.
Lemma all_front_eq' v u : all (front v u) = (rest v ++ vf v) ++ u :: vb v.
Proof. unfold all, rest. cbn. rewrite <- !app_assoc. reflexivity. Qed.

Lemma neutral_push v x u : neutral u -> o_id u = vs v -> o_type u <> TEof -> can_push v x u.
Proof.
  intros [[N|N] M] I T; constructor; try exact I; try (intros H; congruence); rewrite M; discriminate.
Qed.

Lemma B_front_neutral v u : U v -> B v -> neutral u -> o_id u = vs v -> o_type u <> TEof -> B (front v u).
Proof.
  intros H Bv N I T.
  apply (B_push v _ (rest v ++ vf v) (vb v) u H Bv (all_front_eq v) (all_front_eq' v u) (b_eofb _ Bv)
           (neutral_push v _ u N I T) eq_refl).
  - split; [reflexivity|]. left. split; reflexivity.
  - congruence.
  - intros n e X. left. exact X.
  - intros n X. left. exact X.
  - intros n X. left. exact X.
  - destruct N as [[N|N] _]; congruence.
Qed.
Lemma B_back_neutral v u : U v -> B v -> neutral u -> o_id u = vs v -> o_type u <> TEof -> B (back v u).
Proof.
  intros H Bv N I T.
  apply (B_push v _ (all v) [] u H Bv (eq_sym (app_nil_r _)) (all_back v u)
           (fun t X => match X with end) (neutral_push v _ u N I T) eq_refl).
  - split; [reflexivity|]. right. split; reflexivity.
  - congruence.
  - intros n e X. left. exact X.
  - intros n X. left. exact X.
  - intros n X. left. exact X.
  - destruct N as [[N|N] _]; congruence.
Qed.

Lemma B_open v e : U v -> B v -> B (with_e (front v (start_tok v e)) ((vs v, e) :: ve v)).
Proof.
  intros H Bv.
  apply (B_push v _ (rest v ++ vf v) (vb v) (start_tok v e) H Bv (all_front_eq v)); try reflexivity.
  - apply all_front_eq'.
  - apply b_eofb, Bv.
  - constructor; [reflexivity| | |]; discriminate.
  - split; [reflexivity|]. left. split; reflexivity.
  - discriminate.
  - intros n e0 [X|X]; [injection X as <- <-; right; auto|left; exact X].
  - intros n X. left. exact X.
  - intros n X. left. right. exact X.
  - intros _. left. reflexivity.
Qed.

Lemma in_ids n l : In n (ids l) -> exists t, In t l /\ o_id t = n.
Proof. intros X. apply in_map_iff in X. destruct X as [t [A C]]. exists t. auto. Qed.

Lemma B_close v n e r : U v -> B v -> ve v = (n, e) :: r -> B (with_e (front v (end_tok v e (Some n))) r).
Proof.
  intros H Bv E.
  assert (L : In n (live v)) by (unfold live; rewrite E; left; reflexivity).
  apply (B_push v _ (rest v ++ vf v) (vb v) (end_tok v e (Some n)) H Bv (all_front_eq v)); try reflexivity.
  - apply all_front_eq'.
  - apply b_eofb, Bv.
  - constructor; [reflexivity| | |discriminate].
    + intros _.
      assert (D : exists t, In t (rest v ++ vf v) /\ o_id t = n).
      { destruct (b_pos _ Bv n) as [D|[o [D1 D2]]]; [rewrite E; left; reflexivity| |].
        - apply in_ids in D. destruct D as [t [D1 D2]]. exists t. split; [apply in_or_app; right; exact D1|exact D2].
        - apply in_ids in D2. destruct D2 as [t [D2 D3]]. exists t. split; [|exact D3].
          apply in_or_app. left. unfold rest. rewrite D1. apply in_or_app. left. exact D2. }
      destruct D as [t [D1 D2]].
      assert (D3 : In t (all v)) by (rewrite all_front_eq; apply in_or_app; left; exact D1).
      destruct (u_start _ H n L) as [w [W1 [W2 [W3 _]]]].
      assert (t = w) by (apply (same_id v t w H D3 W1); congruence). subst w.
      exists t. split; [exact D1|]. split; [exact W3|]. split; [cbn; congruence|].
      unfold visible. rewrite (b_type _ Bv n e) by (rewrite ?E; try (left; reflexivity); assumption). reflexivity.
    + cbn. intros m X. injection X as <-. apply (u_open _ H n L).
  - split; [reflexivity|]. left. split; reflexivity.
  - discriminate.
  - intros m e0 X. left. rewrite E. right. exact X.
  - intros m X. left. exact X.
  - intros m X. unfold live in *. rewrite E in X. destruct X as [<-|X]; [right; reflexivity|left; exact X].
  - discriminate.
Qed.

Lemma B_copen v c : U v -> B v -> B (with_c (back v (start_tok v (Ecomment c))) (vs v :: vc v)).
Proof.
  intros H Bv.
  apply (B_push v _ (all v) [] (start_tok v (Ecomment c)) H Bv (eq_sym (app_nil_r _))); try reflexivity.
  - apply all_back.
  - intros t [].
  - constructor; [reflexivity| | |]; discriminate.
  - split; [reflexivity|]. right. split; reflexivity.
  - discriminate.
  - intros n e X. left. exact X.
  - intros n [<-|X]; [right; split; reflexivity|left; exact X].
  - intros n X. left. unfold live in *. cbn. rewrite in_app_iff in *. cbn. tauto.
  - intros _. unfold live. cbn. rewrite in_app_iff. cbn. tauto.
Qed.

Lemma B_cclose v n c r : U v -> B v -> vc v = n :: r -> B (with_c (back v (end_tok v (Ecomment c) (Some n))) r).
Proof.
  intros H Bv E.
  assert (L : In n (live v)) by (unfold live; rewrite E; apply in_or_app; right; left; reflexivity).
  apply (B_push v _ (all v) [] (end_tok v (Ecomment c) (Some n)) H Bv (eq_sym (app_nil_r _))); try reflexivity.
  - apply all_back.
  - intros t [].
  - constructor; [reflexivity| | |discriminate].
    + intros _. destruct (u_start _ H n L) as [w [W1 [W2 [W3 _]]]].
      exists w. split; [exact W1|]. split; [exact W3|]. split; [cbn; congruence|].
      apply (b_ctype _ Bv n); [rewrite E; left; reflexivity|exact W1|exact W2].
    + cbn. intros m X. injection X as <-. apply (u_open _ H n L).
  - split; [reflexivity|]. right. split; reflexivity.
  - discriminate.
  - intros m e X. left. exact X.
  - intros m X. left. rewrite E. right. exact X.
  - intros m X. unfold live in *. rewrite E in X. cbn. apply in_app_or in X. rewrite in_app_iff.
    destruct X as [X|[<-|X]]; auto.
  - discriminate.
Qed.

Lemma B_eof v u : U v -> B v -> o_type u = TEof -> neutral u -> o_id u = vs v -> vb v = [] ->
  vr v = None -> ve v = [] -> vc v = [] -> B (front v u).
Proof.
  intros H Bv T N I E1 E2 E3 E4.
  assert (Ax : all v = rest v ++ vf v) by (rewrite all_front_eq, E1, app_nil_r; reflexivity).
  apply (B_push v _ (rest v ++ vf v) (vb v) u H Bv (all_front_eq v) (all_front_eq' v u) (b_eofb _ Bv)).
  - constructor; [exact I| | |].
    + destruct N as [[N|N] _]; congruence.
    + destruct N as [_ N]. rewrite N. discriminate.
    + intros _ t X C. rewrite <- Ax in *. destruct (b_ended _ Bv t X C) as [L|L]; [|exact L].
      unfold live in L. rewrite E3, E4 in L. destruct L.
  - reflexivity.
  - split; [reflexivity|]. left. split; reflexivity.
  - intros _. split; [exact E2|reflexivity].
  - intros n e X. left. exact X.
  - intros n X. left. exact X.
  - intros n X. left. exact X.
  - destruct N as [[N|N] _]; congruence.
Qed.

(** Retyping *)
Lemma two_ends v t u : NoDup (ended (all v)) -> U v -> In t (all v) -> In u (all v) ->
  o_of t <> None -> o_of t = o_of u -> t = u.
Proof.
  intros N H A C Z E. pose proof (u_ids _ H) as D. revert N D A C. generalize (all v) as l.
  induction l as [|w l IH]; intros N D A C; [destruct A|].
  rewrite ended_cons in N. cbn in D. inversion D as [|? ? D1 D2]; subst.
  assert (N2 : NoDup (ended l)).
  { destruct (o_of w); [|exact N]. cbn in N. inversion N; assumption. }
  destruct A as [<-|A], C as [<-|C]; [reflexivity| | |apply IH; assumption].
  - exfalso. destruct (o_of w) as [n|] eqn:Q; [|congruence]. cbn in N. inversion N as [|? ? N1 _]; subst.
    apply N1. apply in_ended. exists u. auto.
  - exfalso. destruct (o_of t) as [n|] eqn:Q; [|congruence]. rewrite <- E in N. cbn in N. inversion N as [|? ? N1 _]; subst.
    apply N1. apply in_ended. exists t. auto.
Qed.

Definition retyping n ty (t : otok) := if o_id t =? n then retyped ty t else t.
Lemma retype1_map n ty l : retype1 n ty l = map (retyping n ty) l.
Proof. reflexivity. Qed.
Lemma retyping_keep n ty : keep_untyped (retyping n ty).
Proof. intros t. unfold retyping. destruct (_ =? _); reflexivity. Qed.
Lemma ids_map g l : keep_untyped g -> ids (map g l) = ids l.
Proof. intros H. unfold ids. rewrite map_map. apply map_ext. intros t. apply (keep_fields g t H). Qed.

Lemma in_map_g (g : otok -> otok) l t : In t (map g l) -> exists u, In u l /\ t = g u.
Proof. intros X. apply in_map_iff in X. destruct X as [u [A C]]. exists u. auto. Qed.

Definition map_view (g : otok -> otok) v :=
  View (option_map (fun r => Outer (map g (oz r)) (map g (oy r)) (ol r) (on r)) (vr v)) (map g (vf v)) (map g (vb v))
    (ve v) (vc v) (vs v).
Lemma all_map_view g v : all (map_view g v) = map g (all v).
Proof.
  unfold all, rest. cbn [vr vf vb map_view]. destruct (vr v); cbn [option_map oz oy]; rewrite !map_app; reflexivity.
Qed.

Lemma B_map g v es :
  keep_untyped g -> (forall t, o_type (g t) = TEof -> o_type t = TEof) -> U v -> B v ->
  map fst es = map fst (ve v) ->
  (forall n e, In (n, e) es -> forall t, In t (all v) -> o_id t = n -> o_type (g t) = TE e) ->
  (forall n, In n (vc v) -> forall t, In t (all v) -> o_id t = n -> g t = t) ->
  (forall t u, In t (all v) -> In u (all v) -> o_cat t = Kstart -> o_cat u = Kend -> o_of u = Some (o_id t) ->
     visible t = visible u -> visible (g t) = visible (g u)) ->
  B (with_e (map_view g v) es).
Proof.
  intros G Z H [P O T C E R N Eb Er S] M X1 X2 X3.
  constructor; rewrite ?all_with_e, ?all_map_view.
  - cbn [ve with_e vf map_view vr]. rewrite M. intros n I. rewrite ids_map by exact G.
    destruct (P n I) as [D|[r [D1 D2]]]; [left; exact D|right]. rewrite D1. cbn. eexists. split; [reflexivity|].
    cbn. rewrite ids_map by exact G. exact D2.
  - cbn [vr with_e map_view vs vf vb]. intros r D. destruct (vr v) as [r0|]; [|discriminate D]. injection D as <-. cbn [on].
    rewrite <- map_app, ids_map by exact G. apply O. reflexivity.
  - cbn [ve with_e]. intros n e I t D F. apply in_map_g in D. destruct D as [u [D ->]].
    destruct (keep_fields g u G) as [F1 _]. apply (X1 n e I u D). congruence.
  - cbn [vc with_e map_view]. intros n I t D F. apply in_map_g in D. destruct D as [u [D ->]].
    destruct (keep_fields g u G) as [F1 _]. rewrite (X2 n I u D) by congruence. apply (C n I u D). congruence.
  - intros t D F. apply in_map_g in D. destruct D as [u [D ->]].
    destruct (keep_fields g u G) as [F1 [F2 _]]. rewrite F1. rewrite F2 in F. rewrite ended_keep by exact G.
    unfold live. cbn [ve vc with_e map_view]. rewrite M. apply (E u D F).
  - apply ordered_map; assumption.
  - rewrite ended_keep by exact G. exact N.
  - cbn [vb with_e map_view]. intros t D F. apply in_map_g in D. destruct D as [u [D ->]]. apply (Eb u D), Z, F.
  - cbn [vr with_e map_view vf]. intros r D t I F. destruct (vr v) as [r0|]; [|discriminate D]. injection D as <-.
    cbn [oy] in I. rewrite <- map_app in I. apply in_map_g in I. destruct I as [u [I ->]].
    apply (Er r0 eq_refl u I), Z, F.
  - apply settled_map; assumption.
Qed.

Definition mild (f : option fault) : Prop := f = None \/ f = Some Fcomment \/ f = Some Fouter.

Lemma retype_view_map n ty v : retype_view n ty v = map_view (retyping n ty) v.
Proof. reflexivity. Qed.

Lemma B_step f v v' : vstep f v v' -> mild f -> U v -> B v -> B v'.
Proof.
  intros S M H Bv. destruct S as [v|v u N I Q T|v u N I Q T|v u N I|v u T N Q I E1 E2 E3 E4|v u T N Q I|v e
    |v n e r E|v e|v n e r E|v e|v c|v n c r E|v c|v n r E|v n e I|v t u T1 T2 C1 C2 O|v v' A1 A2 A3 R E1 E2 E3
    |v E1 E2|v f E1 E2|v r f E1 E2];
    try (exfalso; destruct M as [M|[M|M]]; discriminate M).
  - (* flush *)
    assert (A : all (View (vr v) (vf v ++ vb v) [] (ve v) (vc v) (vs v)) = all v).
    { unfold all, rest. cbn. rewrite app_nil_r. reflexivity. }
    destruct Bv as [P O T C E R N Eb Er Z]. constructor; rewrite ?A; try assumption; cbn.
    + intros n I. destruct (P n I) as [D|D]; [left; rewrite ids_app; apply in_or_app; left; exact D|right; exact D].
    + intros r D. rewrite app_nil_r. apply O, D.
    + intros t [].
    + intros r D t I. rewrite app_assoc in I. apply in_app_or in I. destruct I as [I|I]; [apply (Er r D t I)|apply Eb, I].
  - apply B_front_neutral; assumption.
  - apply B_back_neutral; assumption.
  - apply B_eof; assumption.
  - apply B_open; assumption.
  - apply B_close; assumption.
  - pose proof (B_open v e H Bv) as B1.
    assert (H1 : U (with_e (front v (start_tok v e)) ((vs v, e) :: ve v))).
    { eapply U_step; [apply v_open|exact H]. }
    exact (B_close _ (vs v) e (ve v) H1 B1 eq_refl).
  - apply B_copen; assumption.
  - apply B_cclose; assumption.
  - (* retype an open element *)
    rewrite retype_view_map.
    assert (L : In n (live v)) by (apply in_or_app; left; exact I).
    apply B_map; try assumption.
    + apply retyping_keep.
    + intros t. unfold retyping. destruct (_ =? _); [discriminate|exact (fun X => X)].
    + rewrite map_map. apply map_ext. intros x. destruct (_ =? _); reflexivity.
    + intros m e0 X t D F. apply in_map_iff in X. destruct X as [[k e1] [X1 X2]]. cbn [fst] in X1.
      unfold retyping. destruct (k =? n) eqn:Q.
      * injection X1 as <- <-. rewrite F, Q. reflexivity.
      * injection X1 as <- <-. rewrite F, Q. apply (b_type _ Bv k e1 X2 t D F).
    + intros m X t D F. unfold retyping. destruct (o_id t =? n) eqn:Q; [|reflexivity]. exfalso.
      apply Nat.eqb_eq in Q. pose proof (u_live _ H) as N. unfold live in N.
      assert (Xn : In n (vc v)) by (rewrite <- Q, F; exact X). clear -N I Xn.
      induction (map fst (ve v)) as [|k l IH]; [destruct I|]. cbn in N. inversion N as [|? ? N1 N2]; subst.
      destruct I as [->|I]; [apply N1, in_or_app; right; exact Xn|apply IH; assumption].
    + intros t u D1 D2 F1 F2 F3 F4.
      assert (Q1 : o_id t <> n).
      { intros Q1. apply (u_open _ H n L). apply in_ended. exists u. split; [exact D2|congruence]. }
      assert (Q2 : o_id u <> n).
      { intros Q. destruct (u_start _ H n L) as [w [W1 [W2 [W3 _]]]].
        assert (u = w) by (apply (same_id v u w H D2 W1); congruence). congruence. }
      unfold retyping. apply Nat.eqb_neq in Q1. apply Nat.eqb_neq in Q2. rewrite Q1, Q2. exact F4.
  - (* cancel a pair *)
    set (g := fun z => retyping (o_id u) (TE Enop) (retyping (o_id t) (TE Enop) z)).
    assert (Gi : forall z, o_id (retyping (o_id t) (TE Enop) z) = o_id z).
    { intros z. unfold retyping. destruct (_ =? _); reflexivity. }
    assert (Gt : forall z, o_id z <> o_id t -> o_id z <> o_id u -> g z = z).
    { intros z Q1 Q2. unfold g. apply Nat.eqb_neq in Q1. apply Nat.eqb_neq in Q2.
      unfold retyping at 2. rewrite Q1. unfold retyping. rewrite Q2. reflexivity. }
    assert (Gv : forall z, o_id z = o_id t \/ o_id z = o_id u -> o_type (g z) = TE Enop).
    { intros z Q. unfold g. unfold retyping at 1. rewrite Gi. destruct (o_id z =? o_id u) eqn:Q1; [reflexivity|].
      destruct Q as [Q|Q]; [|rewrite Q, Nat.eqb_refl in Q1; discriminate Q1].
      unfold retyping. rewrite Q, Nat.eqb_refl. reflexivity. }
    assert (Ev : retype_view (o_id u) (TE Enop) (retype_view (o_id t) (TE Enop) v) = with_e (map_view g v) (ve v)).
    { unfold retype_view, map_view, with_e, retype_outer. cbn. unfold retype1. rewrite !map_map.
      destruct (vr v); cbn; rewrite ?map_map; reflexivity. }
    rewrite Ev.
    assert (Dn : forall n, In n (live v) -> n <> o_id t /\ n <> o_id u).
    { intros n L. split; intros ->.
      - apply (u_open _ H _ L). apply in_ended. exists u. auto.
      - destruct (u_start _ H _ L) as [w [W1 [W2 [W3 _]]]].
        assert (w = u) by (apply (same_id v w u H W1 T2 W2)). congruence. }
    apply B_map; try assumption; try reflexivity.
    + intros z. unfold g. rewrite (retyping_keep (o_id u) (TE Enop)). apply retyping_keep.
    + intros z. unfold g, retyping. destruct (o_id z =? o_id t); [destruct (_ =? _)|destruct (_ =? _)]; try discriminate. exact (fun X => X).
    + intros n e X z D F. destruct (Dn n) as [Q1 Q2].
      { apply in_or_app. left. apply in_map_iff. exists (n, e). auto. }
      rewrite Gt by congruence. apply (b_type _ Bv n e X z D F).
    + intros n X z D F. destruct (Dn n) as [Q1 Q2]; [apply in_or_app; right; exact X|]. apply Gt; congruence.
    + intros y w D1 D2 F1 F2 F3 F4.
      destruct (Nat.eq_dec (o_id y) (o_id t)) as [Q|Q].
      * assert (w = u).
        { apply (two_ends v w u (b_once _ Bv) H D2 T2); [congruence|congruence]. }
        subst w. unfold visible. rewrite !Gv by auto. reflexivity.
      * assert (Q2 : o_id y <> o_id u).
        { intros Q2. assert (y = u) by (apply (same_id v y u H D1 T2 Q2)). congruence. }
        assert (Q3 : o_id w <> o_id t).
        { intros Q3. assert (w = t) by (apply (same_id v w t H D2 T1 Q3)). congruence. }
        assert (Q4 : o_id w <> o_id u).
        { intros Q4. assert (w = u) by (apply (same_id v w u H D2 T2 Q4)). subst w. congruence. }
        rewrite !Gt by assumption. exact F4.
  - (* enter *)
    assert (A : all (View (Some (Outer (vf v) (vb v) (map fst (ve v)) (vs v))) [] [] (ve v) (vc v) (vs v)) = all v).
    { rewrite (all_bare v E1). unfold all, rest. cbn. rewrite app_nil_r. reflexivity. }
    destruct Bv as [P O T C E R N Eb Er Z]. constructor; rewrite ?A; try assumption; cbn.
    + intros n I. right. eexists. split; [reflexivity|]. cbn. destruct (P n I) as [D|[r [D _]]]; [exact D|congruence].
    + intros r D. injection D as <-. cbn. split; [lia|]. intros i [].
    + intros t [].
    + intros r D. injection D as <-. cbn. rewrite app_nil_r. exact Eb.
  - assert (A : all (View (Some (Outer (vf v) (vb v) (map fst (ve v)) (vs v))) [] [] (ve v) (vc v) (vs v)) = all v).
    { rewrite (all_bare v E1). unfold all, rest. cbn. rewrite app_nil_r. reflexivity. }
    destruct Bv as [P O T C E R N Eb Er Z]. constructor; rewrite ?A; try assumption; cbn.
    + intros n I. right. eexists. split; [reflexivity|]. cbn. destruct (P n I) as [D|[r [D _]]]; [exact D|congruence].
    + intros r D. injection D as <-. cbn. split; [lia|]. intros i [].
    + intros t [].
    + intros r D. injection D as <-. cbn. rewrite app_nil_r. exact Eb.
  - (* leave *)
    assert (A : all (View None (oz r) (oy r ++ vf v ++ vb v) (ve v) (vc v) (vs v)) = all v).
    { rewrite (all_in v r E1). unfold all, rest. cbn. rewrite <- !app_assoc. reflexivity. }
    destruct E2 as [->|[E2 _]]; [destruct M as [M|[M|M]]; discriminate M|].
    destruct Bv as [P O T C E R N Eb Er Z]. constructor; rewrite ?A; try assumption; cbn.
    + intros n I. left. destruct (P n I) as [D|[r0 [D1 D2]]].
      * exfalso. destruct (O r E1) as [_ O2].
        assert (n < on r) by (apply E2, in_or_app; left; exact I).
        assert (on r <= n); [|lia]. apply O2. rewrite ids_app. apply in_or_app. left. exact D.
      * assert (r0 = r) by congruence. subst r0. exact D2.
    + discriminate.
    + intros t I. rewrite app_assoc in I. apply in_app_or in I. destruct I as [I|I]; [apply (Er r E1 t I)|apply Eb, I].
    + discriminate.
Qed.

Lemma B_first : B first_view.
Proof.
  constructor.
  - intros n [<-|[]]. left. left. reflexivity.
  - discriminate.
  - intros n e [D|[]] t [<-|[<-|[]]] F; injection D as <- <-; [reflexivity|discriminate F].
  - intros n [].
  - intros t [<-|[<-|[]]] F; [|discriminate F]. left. left. reflexivity.
  - intros a u c E K. destruct a as [|x [|y [|z a]]]; cbn in E; try discriminate E; injection E; intros; subst; discriminate K.
  - constructor.
  - intros t [].
  - discriminate.
  - intros a u c E K. destruct a as [|x [|y [|z a]]]; cbn in E; try discriminate E; injection E; intros; subst; discriminate K.
Qed.

Lemma B_run (P : fault -> Prop) v v' : (forall f, P f -> f = Fcomment \/ f = Fouter) ->
  vrun P v v' -> U v -> B v -> B v'.
Proof.
  intros N R. induction R as [|v1 v2 v3 f R IH St Q]; intros H A; [exact A|].
  eapply B_step; [exact St| |eapply U_run; eassumption|auto].
  unfold mild. destruct f as [f|]; [|left; reflexivity]. right.
  destruct (N f (Q f eq_refl)) as [-> | ->]; auto.
Qed.
