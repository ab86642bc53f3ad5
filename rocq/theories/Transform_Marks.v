(** Lemmas about marking: the tree with the results marked (C51). *)
From Verif Require Import Base Text_Model Api_Model Transform_Model Transform_Spec Transform_Trees.
From Coq Require Import Permutation.

Lemma change_none i f t : ~ In i (ids t) -> change i f t = [t].
Proof.
  induction t as [j l ch IH] using tree_in. cbn. intros H. destruct (Nat.eqb_spec i j) as [->|]; [destruct H; auto|].
  assert (H1 : forall c, In c ch -> ~ In i (ids c)) by (intros c C I; apply H; right; apply in_flat_map; exists c; auto). clear H.
  do 2 f_equal. induction ch as [|c ch IHc]; cbn; [reflexivity|].
  rewrite (IH c (or_introl eq_refl) (H1 c (or_introl eq_refl))). cbn. f_equal. apply IHc; intros d D; [apply IH|apply H1]; right; exact D.
Qed.
Lemma change_none_f i f F : ~ In i (flat_map ids F) -> flat_map (change i f) F = F.
Proof. induction F as [|t F IH]; cbn; [reflexivity|]. rewrite in_app_iff. intros H. rewrite change_none, IH by auto. reflexivity. Qed.
Lemma change_perm f r t : NoDup (ids t) -> within r t ->
  Permutation (ids r ++ flat_map ids (change (root_id r) f t)) (flat_map ids (f r) ++ ids t).
Proof.
  induction t as [j l ch IH] using tree_in. intros D [W|W].
  - rewrite <- W. cbn [change root_id]. rewrite Nat.eqb_refl. apply Permutation_app_comm.
  - cbn in D. apply NoDup_cons_iff in D as (J & D). cbn.
    assert (I : In (root_id r) (flat_map ids ch)) by (apply in_ids_f; exists r; auto).
    destruct (Nat.eqb_spec (root_id r) j) as [E|_]; [rewrite E in I; contradiction|]. cbn. rewrite app_nil_r.
    rewrite <- !Permutation_middle. constructor. clear J I.
    induction ch as [|c ch IHc]; cbn in *; [destruct W|]. apply NoDup_app_iff in D as (D1 & D2 & D3).
    rewrite flat_map_app. apply in_app_iff in W as [W|W].
    + rewrite change_none_f by (intros I; exact (D3 _ (within_root _ _ W) I)).
      rewrite !app_assoc. apply Permutation_app_tail. exact (IH c (or_introl eq_refl) D1 W).
    + rewrite (change_none _ _ c) by (intros I; apply (D3 _ I); apply in_ids_f; exists r; auto). cbn. rewrite app_nil_r.
      rewrite app_assoc, (Permutation_app_comm (ids r)), <- app_assoc, (IHc (fun d X => IH d (or_intror X)) D2 W).
      rewrite !app_assoc. apply Permutation_app_tail. apply Permutation_app_comm.
Qed.

(** ** wrapping *)
Lemma wrapped_more old el at_ s i t t' : ~ In i (ids t) -> wrapped old el at_ s t t' -> wrapped old el at_ (i :: s) t t'.
Proof.
  revert t'. induction t as [j l ch IH] using tree_in. intros t' H W.
  assert (H1 : forall c, In c ch -> ~ In i (ids c)) by (intros c C I; apply H; right; apply in_flat_map; exists c; auto).
  assert (J : i <> j) by (intros ->; apply H; left; reflexivity). clear H.
  assert (K : forall ch', Forall2 (wrapped old el at_ s) ch ch' -> Forall2 (wrapped old el at_ (i :: s)) ch ch').
  { clear W J. induction ch as [|c ch IHc]; intros ch' F; inversion F as [|? ? ? ? A B]; constructor.
    - apply IH; [left; reflexivity|apply H1; left; reflexivity|exact A].
    - apply IHc; [intros d D; apply IH; right; exact D|intros d D; apply H1; right; exact D|exact B]. }
  inversion W as [? ? ? ch' N1 F|? ? ? ch' n a N1 F N2 A]; subst.
  - constructor; [intros [E|E]; [exact (J E)|exact (N1 E)]|exact (K _ F)].
  - constructor; [right; exact N1|exact (K _ F)|exact N2|exact A].
Qed.
Lemma wrapped_ext old el at_ s s' t t' : (forall i, In i s <-> In i s') -> wrapped old el at_ s t t' -> wrapped old el at_ s' t t'.
Proof.
  intros E. revert t'. induction t as [j l ch IH] using tree_in. intros t' W.
  assert (K : forall ch', Forall2 (wrapped old el at_ s) ch ch' -> Forall2 (wrapped old el at_ s') ch ch').
  { clear W. induction ch as [|c ch IHc]; intros ch' F; inversion F as [|? ? ? ? A B]; constructor.
    - apply IH; [left; reflexivity|exact A].
    - apply IHc; [intros d D; apply IH; right; exact D|exact B]. }
  inversion W as [? ? ? ch' N1 F|? ? ? ch' n a N1 F N2 A]; subst.
  - constructor; [rewrite <- E; exact N1|exact (K _ F)].
  - constructor; [rewrite <- E; exact N1|exact (K _ F)|exact N2|exact A].
Qed.
Lemma wrapped_none old el at_ t : wrapped old el at_ [] t t.
Proof.
  induction t as [j l ch IH] using tree_in. constructor; [intros []|].
  induction ch as [|c ch IHc]; constructor; [apply IH; left; reflexivity|apply IHc; intros d D; apply IH; right; exact D].
Qed.
Lemma wrapped_root old el at_ s t t' : ~ In (root_id t) s -> wrapped old el at_ s t t' -> root_id t' = root_id t /\ root_label t' = root_label t.
Proof. intros N1 W. inversion W; subst; [split; reflexivity|contradiction]. Qed.

Lemma wrapped_back old el at_ s t t' : wrapped old el at_ s t t' -> forall r', within r' t' -> In (root_id r') old ->
  exists r, within r t /\ root_id r = root_id r' /\ root_label r = root_label r'.
Proof.
  revert t'. induction t as [j l ch IH] using tree_in. intros t' W r' R I.
  assert (K : forall c c', incl c ch -> Forall2 (wrapped old el at_ s) c c' -> occurs r' c' ->
    exists r, occurs r c /\ root_id r = root_id r' /\ root_label r = root_label r').
  { intros c c' Ic F. induction F as [|d d' c c' A F IHF]; intros X; [destruct X|]. unfold occurs in X. cbn in X. apply in_app_iff in X as [X|X].
    - destruct (IH d (Ic d (or_introl eq_refl)) d' A r' X I) as (r & Y & Z). exists r. split; [|exact Z]. unfold occurs. cbn. apply in_app_iff. auto.
    - destruct IHF as (r & Y & Z); [intros k V; apply Ic; right; exact V|exact X|]. exists r. split; [|exact Z]. unfold occurs. cbn. apply in_app_iff. auto. }
  inversion W as [? ? ? ch' N1 F|? ? ? ch' n a N1 F N2 A]; subst; destruct R as [R|R].
  - subst r'. exists (Node j l ch). split; [apply within_self|split; reflexivity].
  - destruct (K ch ch' (fun k X => X) F R) as (r & Y & Z). exists r. split; [right; exact Y|exact Z].
  - subst r'. cbn in I. contradiction.
  - rewrite flat_map_app in R. cbn in R. apply in_app_iff in R as [R|R].
    + exfalso. clear -A R I. induction A as [|lb t lbs a (A1 & B & C) A IHA]; [destruct R|]. cbn in R. apply in_app_iff in R as [R|R]; [|exact (IHA R)].
      destruct t as [k m c]. cbn in B. subst c. destruct R as [R|[]]. subst r'. contradiction.
    + rewrite app_nil_r in R. destruct R as [R|R].
      * subst r'. exists (Node j l ch). split; [apply within_self|split; reflexivity].
      * destruct (K ch ch' (fun k X => X) F R) as (r & Y & Z). exists r. split; [right; exact Y|exact Z].
Qed.

Lemma wrapper_shape x n : exists a, wrapper x n = Node n (mark_label x) a /\
  Forall2 (fun lb t => root_label t = lb /\ children t = [] /\ root_id t = S n) (attr_labels x) a.
Proof.
  unfold wrapper, attr_labels. destruct (empty (x_attr_name x)); eexists; (split; [reflexivity|]); repeat constructor.
Qed.
Lemma attrs_old (old : list nat) n (lbs : list label) a : ~ In (S n) old ->
  Forall2 (fun lb t => root_label t = lb /\ children t = [] /\ root_id t = S n) lbs a ->
  Forall2 (fun lb t => root_label t = lb /\ children t = [] /\ ~ In (root_id t) old) lbs a.
Proof. intros N1 F. induction F as [|lb t lbs a (A & B & C) F IH]; constructor; [|exact IH]. rewrite C. auto. Qed.
Lemma alone_ids t : children t = [] -> ids t = [root_id t].
Proof. destruct t as [i l ch]. cbn. intros ->. reflexivity. Qed.
Lemma attrs_ids (old : list nat) i (lbs : list label) a : In i old ->
  Forall2 (fun lb t => root_label t = lb /\ children t = [] /\ ~ In (root_id t) old) lbs a -> ~ In i (flat_map ids a).
Proof.
  intros I F. induction F as [|lb t lbs a (A & B & C) F IH]; cbn; [intros []|].
  rewrite (alone_ids _ B). intros [E|E]; [rewrite E in C; contradiction|exact (IH E)].
Qed.

Lemma wrap_step old x s i new t : In i old -> ~ In i s -> ~ In new old -> ~ In (S new) old ->
  NoDup (ids t) -> incl (ids t) old -> (forall r, within r t -> root_id r = i -> is_kind Attr r = false) ->
  forall t', wrapped old (mark_label x) (attr_labels x) s t t' ->
  exists t'', change i (wrap x new) t' = [t''] /\ wrapped old (mark_label x) (attr_labels x) (i :: s) t t''.
Proof.
  intros I S1 O1 O2. induction t as [j l ch IH] using tree_in. intros D O K t' W.
  cbn in D. apply NoDup_cons_iff in D as (J & D).
  assert (Oc : incl (flat_map ids ch) old) by (intros k X; apply O; right; exact X).
  assert (Kc : forall r, occurs r ch -> root_id r = i -> is_kind Attr r = false) by (intros r R; apply K; right; exact R).
  assert (C : forall ch', Forall2 (wrapped old (mark_label x) (attr_labels x) s) ch ch' ->
      exists ch'', flat_map (change i (wrap x new)) ch' = ch'' /\ Forall2 (wrapped old (mark_label x) (attr_labels x) (i :: s)) ch ch'').
  { clear W J O K. induction ch as [|c ch IHc]; intros ch' F; inversion F as [|? c' ? r A B]; subst; [exists []; split; [reflexivity|constructor]|].
    cbn in D. apply NoDup_app_iff in D as (D1 & D2 & _).
    destruct (IH c (or_introl eq_refl) D1) with (t' := c') as (c'' & E & W); [..|exact A|].
    - intros k X. apply Oc. cbn. apply in_app_iff. left. exact X.
    - intros q R. apply Kc. apply occurs_in. exists c. split; [left; reflexivity|exact R].
    - destruct (IHc (fun d X => IH d (or_intror X)) D2) with (ch' := r) as (ch'' & E2 & W2); [..|exact B|].
      + intros k X. apply Oc. cbn. apply in_app_iff. right. exact X.
      + intros q R. apply Kc. apply occurs_in in R. destruct R as (d & R1 & R2). apply occurs_in. exists d. split; [right; exact R1|exact R2].
      + exists (c'' :: ch''). cbn. rewrite E, E2. split; [reflexivity|]. constructor; assumption. }
  inversion W as [? ? ? ch' N1 F|? ? ? ch' n a N1 F N2 A]; subst.
  - cbn [change]. destruct (Nat.eqb_spec i j) as [<-|NE].
    + unfold wrap. assert (Kj := K (Node i l ch) (within_self _) eq_refl). unfold is_kind in *. cbn in Kj |- *. rewrite Kj.
      destruct (wrapper_shape x new) as (a & -> & Fa). eexists. split; [reflexivity|].
      constructor; [left; reflexivity| |exact O1|exact (attrs_old _ _ _ _ O2 Fa)].
      clear C. clear -F J.
      assert (J1 : forall c, In c ch -> ~ In i (ids c)) by (intros c C X; apply J; apply in_flat_map; exists c; auto). clear J.
      induction F as [|c c' ch ch' A F IH]; constructor; [apply wrapped_more; [apply J1; left; reflexivity|exact A]|].
      apply IH. intros d X. apply J1. right. exact X.
    + destruct (C ch' F) as (ch'' & -> & Fc). eexists. split; [reflexivity|]. constructor; [intros [X|X]; [exact (NE X)|exact (N1 X)]|exact Fc].
  - assert (Ni : i <> n) by (intros ->; contradiction). cbn [change]. destruct (Nat.eqb_spec i n); [contradiction|].
    rewrite flat_map_app, (change_none_f _ _ a) by exact (attrs_ids _ _ _ _ I A). cbn.
    assert (Nj : i <> j) by (intros ->; contradiction). destruct (Nat.eqb_spec i j); [contradiction|].
    destruct (C ch' F) as (ch'' & -> & Fc). eexists. split; [reflexivity|]. cbn. constructor; [right; exact N1|exact Fc|exact N2|exact A].
Qed.

Lemma wrap_ids x new r : is_kind Attr r = false -> exists a, flat_map ids (wrap x new r) = new :: a ++ ids r /\ (a = [] \/ a = [S new]).
Proof.
  intros K. unfold wrap. rewrite K. destruct (wrapper_shape x new) as (a & -> & F). cbn. rewrite app_nil_r, flat_map_app. cbn. rewrite app_nil_r.
  exists (flat_map ids a). split; [reflexivity|]. unfold attr_labels in F. destruct (empty (x_attr_name x)); inversion F as [|? t ? ? (_ & B & C) G]; subst.
  - left. reflexivity.
  - inversion G. subst. right. cbn. rewrite (alone_ids _ B), C. reflexivity.
Qed.
(** numbers: none twice, the old ones and some from [new] on *)
Definition grown (new : nat) (t t' : tree) : Prop :=
  NoDup (ids t') /\ incl (ids t) (ids t') /\ (forall i, In i (ids t') -> In i (ids t) \/ new <= i).
Lemma grown_self new t : NoDup (ids t) -> grown new t t.
Proof. intros D. repeat split; [exact D|intros i I; exact I|auto]. Qed.
Lemma grown_step new0 new t t' t'' a : grown new0 t t' -> Permutation (ids t'') (a ++ ids t') -> NoDup a -> Forall (fun i => new <= i) a ->
  Forall (fun i => i < new) (ids t') -> new0 <= new -> grown new0 t t''.
Proof.
  intros (D & I & B) P Da Fa Ft L. rewrite Forall_forall in Fa, Ft. repeat split.
  - apply (Permutation_NoDup (Permutation_sym P)). apply NoDup_app_iff. repeat split; [exact Da|exact D|].
    intros i X Y. apply Fa in X. apply Ft in Y. lia.
  - intros i X. apply (Permutation_in _ (Permutation_sym P)). apply in_app_iff. right. exact (I i X).
  - intros i X. apply (Permutation_in _ P) in X. apply in_app_iff in X as [X|X]; [right; specialize (Fa _ X); lia|exact (B i X)].
Qed.
Lemma wrap_all_ok x t : NoDup (ids t) -> forall l s new0 new t', Forall (fun i => i < new) (ids t) -> new0 <= new ->
  NoDup (l ++ s) -> incl l (ids t) -> (forall r, within r t -> In (root_id r) l -> is_kind Attr r = false) ->
  wrapped (ids t) (mark_label x) (attr_labels x) s t t' -> grown new0 t t' -> Forall (fun i => i < new) (ids t') ->
  exists t'', wrap_all x new l [t'] = [t''] /\ wrapped (ids t) (mark_label x) (attr_labels x) (l ++ s) t t'' /\ grown new0 t t''.
Proof.
  intros D. induction l as [|i l IH]; intros s new0 new t' B L Ds I K W G B'.
  - exists t'. split; [reflexivity|]. split; assumption.
  - cbn in Ds. apply NoDup_cons_iff in Ds as (Ni & Ds). rewrite in_app_iff in Ni.
    assert (It : In i (ids t)) by (apply I; left; reflexivity).
    assert (Bn : forall k, new <= k -> ~ In k (ids t)) by (intros k X Y; rewrite Forall_forall in B; specialize (B _ Y); lia).
    destruct (wrap_step (ids t) x s i new t It ltac:(auto) ltac:(apply Bn; lia) ltac:(apply Bn; lia) D (fun k X => X)
      ltac:(intros r R E; apply K; [exact R|left; exact (eq_sym E)]) t' W) as (t1 & E1 & W1).
    cbn [wrap_all flat_map]. rewrite E1. cbn [app].
    destruct (proj1 (in_ids i t')) as (r & R & Er); [exact (proj1 (proj2 G) i It)|].
    assert (P : Permutation (ids r ++ flat_map ids (change (root_id r) (wrap x new) t')) (flat_map ids (wrap x new r) ++ ids t'))
      by (apply change_perm; [exact (proj1 G)|exact R]).
    rewrite Er, E1 in P. cbn in P. rewrite app_nil_r in P.
    assert (Kr : is_kind Attr r = false).
    { destruct (wrapped_back _ _ _ _ _ _ W r R) as (q & Q & Eq & El); [rewrite Er; exact It|].
      unfold is_kind. rewrite <- El. apply (K q Q). left. rewrite Eq. exact (eq_sym Er). }
    destruct (wrap_ids x new r Kr) as (a & Ea & Ca). rewrite Ea in P.
    assert (P1 : Permutation (ids t1) ((new :: a) ++ ids t')).
    { apply (Permutation_app_inv_l (ids r)). rewrite P. cbn. rewrite <- (Permutation_middle (ids r)). constructor.
      rewrite (app_assoc (ids r)), (Permutation_app_comm (ids r) a). reflexivity. }
    assert (Da : NoDup (new :: a) /\ Forall (fun k => new <= k) (new :: a) /\ Forall (fun k => k < S (S new)) (new :: a)).
    { destruct Ca as [->| ->]; repeat split; repeat constructor; cbn; try lia; intros [|[]]; lia. }
    destruct Da as (Da & Db & Dc).
    destruct (IH (i :: s) new0 (S (S new)) t1) as (t2 & E2 & W2 & G2).
    + apply (Forall_impl _ (fun k (X : k < new) => (Nat.lt_lt_succ_r _ _ (Nat.lt_lt_succ_r _ _ X))) B).
    + lia.
    + apply (Permutation_NoDup (Permutation_middle l s i)). apply NoDup_cons_iff. rewrite in_app_iff. auto.
    + intros k X. apply I. right. exact X.
    + intros q Q X. apply K; [exact Q|right; exact X].
    + exact W1.
    + exact (grown_step _ _ _ _ _ _ G P1 Da Db B' L).
    + apply Forall_forall. intros k X. apply (Permutation_in _ P1) in X. apply in_app_iff in X as [X|X].
      * rewrite Forall_forall in Dc. exact (Dc k X).
      * rewrite Forall_forall in B'. specialize (B' k X). lia.
    + exists t2. split; [exact E2|]. split; [|exact G2]. apply (wrapped_ext _ _ _ (l ++ i :: s)); [|exact W2].
      intros k. cbn. rewrite !in_app_iff. cbn. tauto.
Qed.

(** ** attributes *)
Lemma attributed_more old lb s i t t' : ~ In i (ids t) -> attributed old lb s t t' -> attributed old lb (i :: s) t t'.
Proof.
  revert t'. induction t as [j l ch IH] using tree_in. intros t' H W.
  assert (H1 : forall c, In c ch -> ~ In i (ids c)) by (intros c C I; apply H; right; apply in_flat_map; exists c; auto).
  assert (J : i <> j) by (intros ->; apply H; left; reflexivity). clear H.
  assert (K : forall c c', incl c ch -> Forall2 (attributed old lb s) c c' -> Forall2 (attributed old lb (i :: s)) c c').
  { intros c c' Ic F. induction F as [|d d' c c' A F IHF]; constructor.
    - apply IH; [apply Ic; left; reflexivity|apply H1; apply Ic; left; reflexivity|exact A].
    - apply IHF. intros k X. apply Ic. right. exact X. }
  inversion W as [? ? ? ch' N1 F|? ? ? a a' c c' n N1 Ne Ec Fa Fc A C N2]; subst.
  - constructor; [destruct N1 as [N1|N1]; [left; intros [E|E]; [exact (J E)|exact (N1 E)]|right; exact N1]|exact (K _ _ (fun k X => X) F)].
  - apply (With _ _ _ _ _ _ a a' c c' n); auto; [right; exact N1|apply K; [|exact A]|apply K; [|exact C]]; intros k X; apply in_app_iff; auto.
Qed.
Lemma attributed_ext old lb s s' t t' : (forall i, In i s <-> In i s') -> attributed old lb s t t' -> attributed old lb s' t t'.
Proof.
  intros E. revert t'. induction t as [j l ch IH] using tree_in. intros t' W.
  assert (K : forall c c', incl c ch -> Forall2 (attributed old lb s) c c' -> Forall2 (attributed old lb s') c c').
  { intros c c' Ic F. induction F as [|d d' c c' A F IHF]; constructor.
    - apply IH; [apply Ic; left; reflexivity|exact A].
    - apply IHF. intros k X. apply Ic. right. exact X. }
  inversion W as [? ? ? ch' N1 F|? ? ? a a' c c' n N1 Ne Ec Fa Fc A C N2]; subst.
  - constructor; [rewrite <- E; exact N1|exact (K _ _ (fun k X => X) F)].
  - apply (With _ _ _ _ _ _ a a' c c' n); auto; [rewrite <- E; exact N1|apply K; [|exact A]|apply K; [|exact C]]; intros k X; apply in_app_iff; auto.
Qed.
Lemma attributed_none old lb t : attributed old lb [] t t.
Proof.
  induction t as [j l ch IH] using tree_in. constructor; [left; intros []|].
  induction ch as [|c ch IHc]; constructor; [apply IH; left; reflexivity|apply IHc; intros d D; apply IH; right; exact D].
Qed.
Lemma attributed_root old lb s t t' : attributed old lb s t t' -> root_id t' = root_id t /\ root_label t' = root_label t.
Proof. intros W. inversion W; subst; split; reflexivity. Qed.
Lemma attributed_kind old lb s k t t' : attributed old lb s t t' -> is_kind k t' = is_kind k t.
Proof. intros W. unfold is_kind. rewrite (proj2 (attributed_root _ _ _ _ _ W)). reflexivity. Qed.
Lemma attributed_back old lb s t t' : attributed old lb s t t' -> forall r', within r' t' -> In (root_id r') old ->
  exists r, within r t /\ attributed old lb s r r'.
Proof.
  revert t'. induction t as [j l ch IH] using tree_in. intros t' W r' R I.
  assert (K : forall c c', incl c ch -> Forall2 (attributed old lb s) c c' -> occurs r' c' -> exists r, occurs r c /\ attributed old lb s r r').
  { intros c c' Ic F. induction F as [|d d' c c' A F IHF]; intros X; [destruct X|]. unfold occurs in X. cbn in X. apply in_app_iff in X as [X|X].
    - destruct (IH d (Ic d (or_introl eq_refl)) d' A r' X I) as (r & Y & Z). exists r. split; [|exact Z]. unfold occurs. cbn. apply in_app_iff. auto.
    - destruct IHF as (r & Y & Z); [intros k V; apply Ic; right; exact V|exact X|]. exists r. split; [|exact Z]. unfold occurs. cbn. apply in_app_iff. auto. }
  inversion W as [? ? ? ch' N1 F|? ? ? a a' c c' n N1 Ne Ec Fa Fc A C N2]; subst; destruct R as [R|R].
  - subst r'. exists (Node j l ch). split; [apply within_self|exact W].
  - destruct (K ch ch' (fun k X => X) F R) as (r & Y & Z). exists r. split; [right; exact Y|exact Z].
  - subst r'. exists (Node j l (a ++ c)). split; [apply within_self|exact W].
  - rewrite flat_map_app in R. cbn in R. apply in_app_iff in R as [R|[R|R]].
    + destruct (K a a') as (r & Y & Z); [intros k X; apply in_app_iff; auto|exact A|exact R|].
      exists r. split; [right; rewrite flat_map_app; apply in_app_iff; left; exact Y|exact Z].
    + subst r'. cbn in I. contradiction.
    + destruct (K c c') as (r & Y & Z); [intros k X; apply in_app_iff; auto|exact C|exact R|].
      exists r. split; [right; rewrite flat_map_app; apply in_app_iff; right; exact Y|exact Z].
Qed.
Lemma attrs_inside ch : ch = attrs_of ch ++ inside ch /\ Forall (fun t => is_kind Attr t = true) (attrs_of ch) /\
  match inside ch with t :: _ => is_kind Attr t = false | [] => True end.
Proof.
  induction ch as [|t ch (A & B & C)]; cbn [attrs_of inside]; [auto|]. destruct (is_kind Attr t) eqn:E; cbn [app].
  - rewrite <- A. auto.
  - auto.
Qed.
Lemma attrs_alike (R : tree -> tree -> Prop) c c' : (forall t t', R t t' -> is_kind Attr t' = is_kind Attr t) -> Forall2 R c c' ->
  Forall2 R (attrs_of c) (attrs_of c') /\ Forall2 R (inside c) (inside c').
Proof.
  intros H F. induction F as [|t t' c c' A F (B & C)]; cbn [attrs_of inside]; [split; constructor|]. rewrite (H _ _ A).
  destruct (is_kind Attr t); split; try constructor; auto.
Qed.
Lemma no_prop x uri ch : (forall a, In a ch -> is_kind Attr a = true -> n_name (root_label a) <> x_attr_name x) -> get_ns_prop ch (x_attr_name x) uri = None.
Proof.
  intros H. unfold get_ns_prop. destruct (find _ ch) as [t|] eqn:F; [|reflexivity]. apply find_some in F as (I & E).
  apply andb_prop in E as (E & _). apply andb_prop in E as (E1 & E2). destruct (H t I E1).
  unfold beqb in E2. destruct (list_eq_dec N.eq_dec _ _) as [Q|]; [exact Q|discriminate].
Qed.
Definition new_attr (x : xpath_t) : label := Label Attr (x_attr_name x) (x_attr_ns x) (x_attr_value x).
Lemma mark_step old x s i new t : In i old -> ~ In i s -> ~ In new old ->
  NoDup (ids t) -> incl (ids t) old ->
  (forall r a, within r t -> root_id r = i -> In a (children r) -> is_kind Attr a = true -> n_name (root_label a) <> x_attr_name x) ->
  forall t', attributed old (new_attr x) s t t' ->
  exists t'', change i (mark x new) t' = [t''] /\ attributed old (new_attr x) (i :: s) t t''.
Proof.
  intros I S1 O1. induction t as [j l ch IH] using tree_in. intros D O K t' W.
  cbn in D. apply NoDup_cons_iff in D as (J & D).
  assert (C : forall c c', incl c ch -> Forall2 (attributed old (new_attr x) s) c c' ->
      exists c'', flat_map (change i (mark x new)) c' = c'' /\ Forall2 (attributed old (new_attr x) (i :: s)) c c'').
  { intros c c' Ic F. induction F as [|d d' c c' A F IHF]; [exists []; split; [reflexivity|constructor]|].
    assert (Id : In d ch) by (apply Ic; left; reflexivity).
    destruct (IH d Id) with (t' := d') as (d'' & E1 & W1); [..|exact A|].
    - clear -D Id. induction ch as [|e ch IHc]; [destruct Id|]. cbn in D. apply NoDup_app_iff in D as (D1 & D2 & _).
      destruct Id as [<-|Id]; [exact D1|exact (IHc D2 Id)].
    - intros k X. apply O. right. apply in_flat_map. exists d. auto.
    - intros r a R. apply K. right. apply in_flat_map. exists d. auto.
    - destruct IHF as (c'' & E2 & W2); [intros k X; apply Ic; right; exact X|].
      exists (d'' :: c''). cbn. rewrite E1, E2. split; [reflexivity|constructor; assumption]. }
  inversion W as [? ? ? ch' N1 F|? ? ? a a' c c' n N1 Ne Ec Fa Fc A B N2]; subst.
  - cbn [change]. destruct (Nat.eqb_spec i j) as [<-|NE].
    + assert (F1 : Forall2 (attributed old (new_attr x) (i :: s)) ch ch').
      { clear -F J. assert (J1 : forall c, In c ch -> ~ In i (ids c)) by (intros c C X; apply J; apply in_flat_map; exists c; auto). clear J.
        induction F as [|c c' ch ch' A F IH]; constructor; [apply attributed_more; [apply J1; left; reflexivity|exact A]|].
        apply IH. intros d X. apply J1. right. exact X. }
      unfold mark. destruct (is_kind Elem (Node i l ch')) eqn:Ek.
      * assert (El : n_kind l = Elem) by (unfold is_kind in Ek; cbn in Ek; destruct (n_kind l); (reflexivity || discriminate)).
        cbn [add_attribute]. rewrite no_prop.
        2:{ intros a Ia Ka.
            assert (Ha : exists b, In b ch /\ root_label a = root_label b).
            { clear -F Ia. induction F as [|c c' ch ch' A F IH]; [destruct Ia|]. destruct Ia as [<-|Ia].
              - exists c. split; [left; reflexivity|exact (proj2 (attributed_root _ _ _ _ _ A))].
              - destruct (IH Ia) as (b & B & E). exists b. split; [right; exact B|exact E]. }
            destruct Ha as (b & Ib & Eb). rewrite Eb. apply (K (Node i l ch) b); [apply within_self|reflexivity|exact Ib|].
            unfold is_kind in Ka |- *. rewrite <- Eb. exact Ka. }
        eexists. split; [reflexivity|]. destruct (attrs_inside ch) as (E1 & E2 & E3).
        destruct (attrs_alike _ _ _ (attributed_kind old (new_attr x) (i :: s) Attr) F1) as (F2 & F3).
        apply (With _ _ _ _ _ _ (attrs_of ch) (attrs_of ch') (inside ch) (inside ch') new); auto. left. reflexivity.
      * eexists. split; [reflexivity|]. constructor; [right|exact F1]. intros El. unfold is_kind in Ek. cbn in Ek. rewrite El in Ek. discriminate.
    + destruct (C ch ch' (fun k X => X) F) as (ch'' & -> & Fc). eexists. split; [reflexivity|].
      constructor; [destruct N1 as [N1|N1]; [left; intros [X|X]; [exact (NE X)|exact (N1 X)]|right; exact N1]|exact Fc].
  - assert (Nj : i <> j) by (intros ->; contradiction). assert (Ni : i <> n) by (intros ->; contradiction).
    cbn [change]. destruct (Nat.eqb_spec i j); [contradiction|]. rewrite flat_map_app. cbn. destruct (Nat.eqb_spec i n); [contradiction|].
    destruct (C a a') as (a'' & -> & Fa'); [intros k X; apply in_app_iff; auto|exact A|].
    destruct (C c c') as (c'' & -> & Fc'); [intros k X; apply in_app_iff; auto|exact B|].
    eexists. split; [reflexivity|]. apply (With _ _ _ _ _ _ a a'' c c'' n); auto. right. exact N1.
Qed.
Lemma flat_ids_split ch : Permutation (flat_map ids (attrs_of ch) ++ flat_map ids (inside ch)) (flat_map ids ch).
Proof. rewrite <- flat_map_app. rewrite <- (proj1 (attrs_inside ch)). reflexivity. Qed.
Lemma mark_ids x new r : exists a, Permutation (flat_map ids (mark x new r)) (a ++ ids r) /\ (a = [] \/ a = [new]).
Proof.
  unfold mark. destruct (is_kind Elem r); [|exists []; cbn; rewrite app_nil_r; auto].
  exists [new]. split; [|auto]. destruct r as [i l ch]. cbn. rewrite app_nil_r, flat_map_app. cbn.
  rewrite <- Permutation_middle. rewrite flat_ids_split. apply perm_swap.
Qed.
Lemma mark_all_ok x t : NoDup (ids t) -> forall l s new0 new t', Forall (fun i => i < new) (ids t) -> new0 <= new ->
  NoDup (l ++ s) -> incl l (ids t) ->
  (forall r a, within r t -> In (root_id r) l -> In a (children r) -> is_kind Attr a = true -> n_name (root_label a) <> x_attr_name x) ->
  attributed (ids t) (new_attr x) s t t' -> grown new0 t t' -> Forall (fun i => i < new) (ids t') ->
  exists t'', mark_all x new l [t'] = [t''] /\ attributed (ids t) (new_attr x) (l ++ s) t t'' /\ grown new0 t t''.
Proof.
  intros D. induction l as [|i l IH]; intros s new0 new t' B L Ds I K W G B'.
  - exists t'. split; [reflexivity|]. split; assumption.
  - cbn in Ds. apply NoDup_cons_iff in Ds as (Ni & Ds). rewrite in_app_iff in Ni.
    assert (It : In i (ids t)) by (apply I; left; reflexivity).
    assert (Bn : forall k, new <= k -> ~ In k (ids t)) by (intros k X Y; rewrite Forall_forall in B; specialize (B _ Y); lia).
    destruct (mark_step (ids t) x s i new t It ltac:(auto) ltac:(apply Bn; lia) D (fun k X => X)
      ltac:(intros r a R E; apply K; [exact R|left; exact (eq_sym E)]) t' W) as (t1 & E1 & W1).
    cbn [mark_all flat_map]. rewrite E1. cbn [app].
    destruct (proj1 (in_ids i t')) as (r & R & Er); [exact (proj1 (proj2 G) i It)|].
    assert (P : Permutation (ids r ++ flat_map ids (change (root_id r) (mark x new) t')) (flat_map ids (mark x new r) ++ ids t'))
      by (apply change_perm; [exact (proj1 G)|exact R]).
    rewrite Er, E1 in P. cbn [flat_map] in P. rewrite app_nil_r in P.
    destruct (mark_ids x new r) as (a & Ea & Ca).
    assert (P1 : Permutation (ids t1) (a ++ ids t')).
    { apply (Permutation_app_inv_l (ids r)). rewrite P, Ea, (app_assoc (ids r)), (Permutation_app_comm (ids r) a). reflexivity. }
    assert (Da : NoDup a /\ Forall (fun k => new <= k) a /\ Forall (fun k => k < S (S new)) a).
    { destruct Ca as [->| ->]; repeat split; repeat constructor; cbn; try lia; intros []; lia. }
    destruct Da as (Da & Db & Dc).
    destruct (IH (i :: s) new0 (S (S new)) t1) as (t2 & E2 & W2 & G2).
    + apply (Forall_impl _ (fun k (X : k < new) => (Nat.lt_lt_succ_r _ _ (Nat.lt_lt_succ_r _ _ X))) B).
    + lia.
    + apply (Permutation_NoDup (Permutation_middle l s i)). apply NoDup_cons_iff. rewrite in_app_iff. auto.
    + intros k X. apply I. right. exact X.
    + intros q b Q X. apply K; [exact Q|right; exact X].
    + exact W1.
    + exact (grown_step _ _ _ _ _ _ G P1 Da Db B' L).
    + apply Forall_forall. intros k X. apply (Permutation_in _ P1) in X. apply in_app_iff in X as [X|X].
      * rewrite Forall_forall in Dc. exact (Dc k X).
      * rewrite Forall_forall in B'. specialize (B' k X). lia.
    + exists t2. split; [exact E2|]. split; [|exact G2]. apply (attributed_ext _ _ (l ++ i :: s)); [|exact W2].
      intros k. cbn. rewrite !in_app_iff. cbn. tauto.
Qed.
