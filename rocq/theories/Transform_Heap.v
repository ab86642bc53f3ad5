(** Lemmas about the documents in memory, and one transformation of one document. *)
From Verif Require Import Base Text_Model Api_Model Transform_Model Transform_Spec Transform_Trees Transform_Marks.
From Coq Require Import Permutation.

Definition forest (h : heap) : list tree := map snd (h_trees h).
Definition docs_ok (h : heap) : Prop := Forall (fun e : option nat * tree => match fst e with Some d => d <= h_doc h | None => True end) (h_trees h).
Lemma forest_ids h : flat_map (fun e : option nat * tree => ids (snd e)) (h_trees h) = flat_map ids (forest h).
Proof. unfold forest. rewrite !flat_map_concat_map, map_map. reflexivity. Qed.
Lemma forest_seek i h : flat_map (fun e : option nat * tree => seek i (snd e)) (h_trees h) = flat_map (seek i) (forest h).
Proof. unfold forest. rewrite !flat_map_concat_map, map_map. reflexivity. Qed.
Lemma next_fresh h : Forall (fun i => i < next_id h) (flat_map ids (forest h)).
Proof.
  unfold next_id. rewrite forest_ids. apply Forall_forall. intros i I.
  assert (H : i <= list_max (h_node h :: flat_map ids (forest h))); [|lia].
  assert (Q := proj1 (list_max_le (h_node h :: flat_map ids (forest h)) _) (le_n _)). rewrite Forall_forall in Q. apply Q. right. exact I.
Qed.

Definition pruned (i : nat) (l : list (option nat * tree)) : list (option nat * tree) :=
  flat_map (fun e => map (fun u => (fst e, u)) (prune i (snd e))) l.
Lemma pruned_forest i l : map snd (pruned i l) = flat_map (prune i) (map snd l).
Proof. unfold pruned. induction l as [|e l IH]; cbn; [reflexivity|]. rewrite map_app, map_map, IH. cbn. rewrite map_id. reflexivity. Qed.
Definition tops_of (d : nat) (l : list (option nat * tree)) : list tree := map snd (filter (in_doc d) l).
Definition doc_is (d : nat) (o : option nat) : bool := match o with Some k => Nat.eqb d k | None => false end.
Lemma filter_doc d o (r : list tree) : map snd (filter (in_doc d) (map (fun u => (o, u)) r)) = if doc_is d o then r else [].
Proof.
  induction r as [|u r IH]; cbn [map filter]; [destruct (doc_is d o); reflexivity|]. change (in_doc d (o, u)) with (doc_is d o).
  destruct (doc_is d o) eqn:E; cbn [map snd]; rewrite IH; reflexivity.
Qed.
Lemma pruned_tops d i l : tops_of d (pruned i l) = flat_map (prune i) (tops_of d l).
Proof.
  unfold tops_of, pruned. induction l as [|[o t] l IH]; [reflexivity|]. cbn [flat_map fst snd filter].
  rewrite filter_app, map_app, IH, filter_doc. change (in_doc d (o, t)) with (doc_is d o). destruct (doc_is d o); reflexivity.
Qed.
Lemma prune_top i t : prune i t = [] \/ exists ch, prune i t = [Node (root_id t) (root_label t) ch].
Proof. destruct t as [j l ch]. cbn. destruct (Nat.eqb i j); [left; reflexivity|right; eexists; reflexivity]. Qed.
Lemma exchange_none d t l : tops_of d l = [] -> exchange d t l = None.
Proof.
  unfold tops_of. induction l as [|e l IH]; cbn; [reflexivity|]. destruct (in_doc d e) eqn:E; cbn; [discriminate|].
  intros H. rewrite (IH H). reflexivity.
Qed.
Lemma exchange_some d t l e : tops_of d l = [e] -> is_kind Elem e = true ->
  exists l', exchange d t l = Some l' /\ Permutation (map snd l') (t :: map snd l) /\ tops_of d l' = [t] /\
    incl (map fst l') (Some d :: None :: map fst l).
Proof.
  unfold tops_of. intros T K. induction l as [|[o u] l IH]; cbn [filter map] in T; [discriminate|]. cbn [exchange fst snd].
  destruct (in_doc d (o, u)) eqn:E; cbn [map snd andb] in *.
  - injection T as Eu Tl. subst u. rewrite K. eexists. split; [reflexivity|]. split; [reflexivity|]. split.
    + cbn [filter map snd]. unfold in_doc at 1. cbn [fst]. rewrite Nat.eqb_refl. cbn [map snd filter]. unfold in_doc at 1. cbn [fst]. rewrite Tl. reflexivity.
    + intros x [X|[X|X]]; [left; exact X|right; left; exact X|]. right. right. right. exact X.
  - destruct (IH T) as (l' & -> & P & T' & In'). eexists. split; [reflexivity|]. split; [|split].
    + cbn. rewrite P. apply perm_swap.
    + cbn [filter map]. rewrite E. exact T'.
    + intros x [X|X]; [right; right; left; exact X|]. apply In' in X as [X|[X|X]]; [left; exact X|right; left; exact X|right; right; right; exact X].
Qed.
Lemma in_doc_kind t : is_kind Elem t = true -> is_kind Attr t = false.
Proof. unfold is_kind. destruct (n_kind (root_label t)); (reflexivity || discriminate). Qed.

Lemma set_root_ok d h e t : NoDup (flat_map ids (forest h)) -> docs_ok h -> d <= h_doc h -> tops d h = [e] -> is_kind Elem e = true ->
  occurs t (forest h) -> is_kind Elem t = true ->
  exists h', set_root d (root_id t) h = Ok h' /\ Permutation (forest h') (t :: flat_map (prune (root_id t)) (forest h)) /\
    tops d h' = [t] /\ docs_ok h' /\ h_doc h' = h_doc h.
Proof.
  intros D Dk Ld T K O Kt. unfold set_root. rewrite forest_seek, (seek_some_f _ _ D O). cbv zeta.
  fold (pruned (root_id t) (h_trees h)). set (rest := pruned (root_id t) (h_trees h)).
  assert (Tr : tops_of d rest = prune (root_id t) e).
  { unfold rest. rewrite pruned_tops. unfold tops_of. unfold tops in T. rewrite T. cbn. apply app_nil_r. }
  assert (Fr : map snd rest = flat_map (prune (root_id t)) (forest h)) by apply pruned_forest.
  assert (Dr : forall o, In o (map fst rest) -> In o (map fst (h_trees h))).
  { intros o I. apply in_map_iff in I. destruct I as (p & <- & I). unfold rest, pruned in I. apply in_flat_map in I. destruct I as (q & Q & I).
    apply in_map_iff in I. destruct I as (v & <- & _). cbn. apply in_map. exact Q. }
  assert (Dd : forall l, incl (map fst l) (Some d :: None :: map fst (h_trees h)) -> docs_ok (Heap l (h_node h) (h_doc h))).
  { intros l I. unfold docs_ok in *. cbn. apply Forall_forall. intros p P. apply (in_map fst) in P. apply I in P.
    destruct P as [<-|[<-|P]]; [exact Ld|exact Logic.I|]. apply in_map_iff in P. destruct P as (q & <- & Q). rewrite Forall_forall in Dk. exact (Dk q Q). }
  destruct (prune_top (root_id t) e) as [E|(ch & E)]; rewrite E in Tr.
  - rewrite (exchange_none _ _ _ Tr). eexists. split; [reflexivity|]. unfold forest, tops. cbn [h_trees h_doc]. split; [|split; [|split; [|reflexivity]]].
    + rewrite map_app. cbn. rewrite <- Permutation_cons_append, Fr. reflexivity.
    + rewrite filter_app, map_app. unfold tops_of in Tr. rewrite Tr. cbn. unfold in_doc. cbn. rewrite Nat.eqb_refl. reflexivity.
    + apply Dd. rewrite map_app. intros o I. apply in_app_iff in I as [I|[<-|[]]]; [right; right; exact (Dr o I)|left; reflexivity].
  - destruct (exchange_some d t rest _ Tr) as (l' & -> & P & T' & I'); [unfold is_kind in *; exact K|].
    rewrite (in_doc_kind _ Kt). eexists. split; [reflexivity|]. unfold forest, tops. cbn [h_trees h_doc]. split; [|split; [|split; [|reflexivity]]].
    + rewrite P, Fr. reflexivity.
    + exact T'.
    + apply Dd. intros o I. apply I' in I as [<-|[<-|I]]; [left; reflexivity|right; left; reflexivity|right; right; exact (Dr o I)].
Qed.
Lemma put_tops_ok d h t t' : tops d h = [t] -> exists F, Permutation (forest h) (t :: F) /\
  Permutation (map snd (put_tops d [t'] (h_trees h))) (t' :: F) /\ tops_of d (put_tops d [t'] (h_trees h)) = [t'] /\
  incl (map fst (put_tops d [t'] (h_trees h))) (Some d :: map fst (h_trees h)).
Proof.
  intros T. exists (map snd (filter (fun e => negb (in_doc d e)) (h_trees h))). unfold put_tops. cbn [map].
  repeat split.
  - unfold forest. clear -T. unfold tops in T. revert T. generalize (h_trees h). intros l.
    assert (H : forall l, Permutation (map snd l) (map snd (filter (in_doc d) l) ++ map snd (filter (fun e => negb (in_doc d e)) l))).
    { clear. induction l as [|e l IH]; cbn; [reflexivity|]. destruct (in_doc d e); cbn.
      - constructor. exact IH.
      - rewrite <- Permutation_middle. constructor. exact IH. }
    intros T. rewrite (H l), T. reflexivity.
  - rewrite map_app. cbn. rewrite <- Permutation_cons_append. reflexivity.
  - unfold tops_of. rewrite filter_app, map_app. cbn [filter map]. change (in_doc d (Some d, t')) with (Nat.eqb d d). rewrite Nat.eqb_refl. cbn [map snd].
    assert (E : filter (in_doc d) (filter (fun e => negb (in_doc d e)) (h_trees h)) = []).
    { clear. induction (h_trees h) as [|e l IH]; cbn; [reflexivity|]. destruct (in_doc d e) eqn:E; cbn; [exact IH|]. rewrite E. exact IH. }
    rewrite E. reflexivity.
  - rewrite map_app. intros o I. apply in_app_iff in I as [I|[<-|[]]]; [right|left; reflexivity].
    apply in_map_iff in I. destruct I as (e & <- & I). apply filter_In in I as (I & _). apply in_map. exact I.
Qed.
Lemma merge_new us rs : NoDup (us ++ rs) -> merge_nodes us rs = us ++ rs.
Proof.
  unfold merge_nodes. revert us. induction rs as [|r rs IH]; intros us D; cbn; [rewrite app_nil_r; reflexivity|].
  destruct (existsb (Nat.eqb r) us) eqn:E.
  - exfalso. apply existsb_exists in E. destruct E as (y & Y & E). apply Nat.eqb_eq in E. subst y.
    apply NoDup_app_iff in D as (_ & _ & D). exact (D r Y (or_introl eq_refl)).
  - rewrite IH; [rewrite <- app_assoc; reflexivity|]. rewrite <- app_assoc. exact D.
Qed.

(** ** one document *)
Definition not_xslt (it : item) : bool := match i_trans it with TXslt _ => false | _ => true end.
Lemma within_list t l : incl l (ids t) -> exists rs, map root_id rs = l /\ Forall (fun r => within r t) rs.
Proof.
  induction l as [|i l IH]; intros I; [exists []; split; [reflexivity|constructor]|].
  destruct (IH (fun k X => I k (or_intror X))) as (rs & E & F). destruct (proj1 (in_ids i t) (I i (or_introl eq_refl))) as (r & R & Er).
  exists (r :: rs). cbn. rewrite E, Er. split; [reflexivity|constructor; assumption].
Qed.
(** nodes of a tree, none inside another, have no number twice *)
Lemma apart t rs : NoDup (ids t) -> NoDup (map root_id rs) -> Forall (fun r => within r t) rs ->
  (forall q r, In q rs -> In r rs -> within r q -> r = q) -> NoDup (flat_map ids rs).
Proof.
  intros D Dr F A.
  assert (H : forall t q r, NoDup (ids t) -> within q t -> within r t -> (exists i, In i (ids q) /\ In i (ids r)) -> within q r \/ within r q).
  { clear. induction t as [j l ch IH] using tree_in. intros q r D Q R E.
    destruct Q as [Q|Q]; [subst q; right; exact R|]. destruct R as [R|R]; [subst r; left; right; exact Q|].
    apply in_flat_map in Q. destruct Q as (c & C & Q). apply in_flat_map in R. destruct R as (d & Dd & R).
    cbn in D. apply NoDup_cons_iff in D as (_ & D).
    assert (c = d /\ NoDup (ids c)) as (-> & Dc).
    { destruct E as (i & E1 & E2). apply (within_ids _ _ Q) in E1. apply (within_ids _ _ R) in E2. clear -C Dd D E1 E2.
      induction ch as [|e ch IH]; [destruct C|]. cbn in D. apply NoDup_app_iff in D as (D1 & D2 & D3). destruct C as [<-|C], Dd as [<-|Dd].
      - auto.
      - exfalso. apply (D3 i E1). apply in_flat_map. exists d. auto.
      - exfalso. apply (D3 i E2). apply in_flat_map. exists c. auto.
      - exact (IH D2 C Dd). }
    exact (IH d Dd q r Dc Q R E). }
  induction rs as [|r rs IH]; cbn; [constructor|]. cbn in Dr. apply NoDup_cons_iff in Dr as (Nr & Dr).
  pose proof (Forall_inv F) as Wr. pose proof (Forall_inv_tail F) as Fr. apply NoDup_app_iff. repeat split.
  - rewrite ids_nodes in D |- *. clear -D Wr. apply (NoDup_map_inv _ _) in D as D0. clear D0.
    rewrite <- ids_nodes in *. clear -D Wr. induction t as [j l ch IH] using tree_in. destruct Wr as [W|W]; [subst r; exact D|].
    apply in_flat_map in W. destruct W as (c & C & W). apply (IH c C); [|exact W]. cbn in D. apply NoDup_cons_iff in D as (_ & D). clear -C D.
    induction ch as [|e ch IH]; [destruct C|]. cbn in D. apply NoDup_app_iff in D as (D1 & D2 & _). destruct C as [<-|C]; [exact D1|exact (IH D2 C)].
  - apply IH; [exact Dr|exact Fr|]. intros p q P Q. apply A; right; assumption.
  - intros i I J. apply in_flat_map in J. destruct J as (q & Q & J). rewrite Forall_forall in Fr.
    assert (q = r).
    { destruct (H t q r D (Fr q Q) Wr) as [X|X]; [exists i; auto| |].
      - apply (A r q); [left; reflexivity|right; exact Q|exact X].
      - symmetry. apply (A q r); [right; exact Q|left; reflexivity|exact X]. }
    subst q. apply Nr. apply in_map. exact Q.
Qed.

Definition plain (it : item) : bool := match i_trans it with TXPath x => empty (x_element x) && empty (x_attr_name x) | _ => false end.
Definition wrap_known (it : item) (us : list tree) (r : tresult) : Prop :=
  (plain it = false -> r_wrapped r = true) /\
  (plain it = true -> exists q, In q us /\ r_wrapped r = beqb (n_name (root_label q)) (txt "unit")).
Lemma empty_cons (s : bytes) : s <> [] -> empty s = false.
Proof. destruct s; [contradiction|reflexivity]. Qed.
(** XPath and RelaxNG: the document stays, with results in it *)
Lemma item_ok g it t new last : proper g -> not_xslt it = true -> NoDup (ids t) -> is_kind Elem t = true -> Forall (fun i => i < new) (ids t) ->
  fits g it t last ->
  exists t' rs r, apply_item g it new [t] = Ok ([t'], None, r) /\ r_type r = RESULT_UNITS /\ r_nodes r = Some (map root_id rs) /\
    applied g it t rs /\ rs <> [] /\ NoDup (map root_id rs) /\ Forall (fun q => within q t') rs /\
    NoDup (ids t') /\ (forall i, In i (ids t') -> In i (ids t) \/ new <= i) /\ is_kind Elem t' = true /\
    (last = false -> NoDup (flat_map ids rs) /\ Forall (fun q => is_kind Elem q = true) rs) /\ wrap_known it rs r.
Proof.
  intros (Px & Pp & Ps) X D K B F. unfold apply_item, fits, not_xslt in *. destruct (i_trans it) as [x|s|s] eqn:Ei; [|discriminate X|].
  - destruct F as (l & El & F). destruct (Px _ _ _ El) as (Dl & Il). unfold apply_xpath. rewrite (in_doc_kind _ K), El. cbv zeta.
    assert (Rs : forall t', root_label t' = root_label t -> root_set [t'] = [root_id t'])
      by (intros t' E; unfold root_set, root_element; cbn [find]; unfold is_kind in *; rewrite E, K; reflexivity).
    assert (Ks : forall t', root_label t' = root_label t -> is_kind Elem t' = true) by (intros t' E; unfold is_kind in *; rewrite E; exact K).
    destruct (x_element x) as [|c el] eqn:Ex.
    + cbn [empty negb]. destruct (x_attr_name x) as [|c an] eqn:Ea.
      * cbn [empty negb]. destruct F as (Nl & F). destruct (within_list t l Il) as (rs & Er & Wr).
        exists t, rs. destruct l as [|i l]; [contradiction|]. eexists. split; [reflexivity|]. cbn [r_type r_nodes units_result]. rewrite <- Er.
        split; [reflexivity|]. split; [reflexivity|]. split; [apply (Found g it t x (i :: l)); auto|]. split; [intros ->; discriminate Er|].
        split; [rewrite Er; exact Dl|]. split; [exact Wr|]. split; [exact D|]. split; [auto|]. split; [exact K|].
        split; [|split; [unfold plain; rewrite Ei, Ex, Ea; discriminate|]; intros _; destruct rs as [|q rs]; [discriminate Er|]; exists q; split; [left; reflexivity|];
          cbn in Er; injection Er as Eq _; cbn [r_wrapped]; unfold name_of; cbn [flat_map]; rewrite app_nil_r, <- Eq, (seek_some _ _ D (Forall_inv Wr)); reflexivity].
        intros Hl. destruct (F Hl) as (F1 & F2). rewrite Forall_forall in Wr. split.
        { apply (apart t); [exact D|rewrite Er; exact Dl|apply Forall_forall; exact Wr|]. intros q r Q R W.
          apply (F2 q r); auto; rewrite <- Er; apply in_map; assumption. }
        { apply Forall_forall. intros q Q. apply F1; [exact (Wr q Q)|]. rewrite <- Er. apply in_map. exact Q. }
      * cbn [empty negb]. rewrite <- Ea in *.
        destruct (mark_all_ok x t D l [] new new t B (le_n _)) as (t' & E' & W' & G'); [rewrite app_nil_r; exact Dl|exact Il|exact F|apply attributed_none|apply grown_self; exact D|exact B|].
        rewrite app_nil_r in W'. rewrite E'. destruct (attributed_root _ _ _ _ _ W') as (R1 & R2). rewrite (Rs t' R2).
        exists t', [t']. eexists. split; [reflexivity|]. split; [reflexivity|]. split; [reflexivity|].
        split; [apply (Attributed g it t x l); auto; rewrite Ea; discriminate|]. split; [discriminate|].
        split; [repeat constructor; intros []|]. split; [repeat constructor; apply within_self|]. split; [exact (proj1 G')|]. split; [exact (proj2 (proj2 G'))|].
        split; [exact (Ks _ R2)|]. split; [intros _; cbn [flat_map]; rewrite app_nil_r; split; [exact (proj1 G')|repeat constructor; exact (Ks _ R2)]|].
      split; [reflexivity|]. unfold plain. rewrite Ei, Ex, ?Ea. discriminate.
    + cbn [empty negb]. destruct F as (F1 & F2).
      assert (Ne : existsb (fun i => existsb (Nat.eqb i) (root_set [t])) l = false).
      { rewrite (Rs t eq_refl). cbn. destruct (existsb _ l) eqn:E; [|reflexivity]. apply existsb_exists in E. destruct E as (i & I & E).
        rewrite orb_false_r in E. apply Nat.eqb_eq in E. subst i. contradiction. }
      rewrite Ne. destruct (wrap_all_ok x t D l [] new new t B (le_n _)) as (t' & E' & W' & G'); [rewrite app_nil_r; exact Dl|exact Il|exact F2|apply wrapped_none|apply grown_self; exact D|exact B|].
      rewrite app_nil_r in W'. rewrite E'. destruct (wrapped_root _ _ _ _ _ _ F1 W') as (R1 & R2). rewrite (Rs t' R2).
      exists t', [t']. eexists. split; [reflexivity|]. split; [reflexivity|]. split; [reflexivity|].
      split; [apply (Wrapped g it t x l); auto; rewrite Ex; discriminate|]. split; [discriminate|].
      split; [repeat constructor; intros []|]. split; [repeat constructor; apply within_self|]. split; [exact (proj1 G')|]. split; [exact (proj2 (proj2 G'))|].
      split; [exact (Ks _ R2)|]. split; [intros _; cbn [flat_map]; rewrite app_nil_r; split; [exact (proj1 G')|repeat constructor; exact (Ks _ R2)]|].
      split; [reflexivity|]. unfold plain. rewrite Ei, Ex, ?Ea. discriminate.
  - unfold apply_rng. rewrite F. exists t, [t]. eexists. split; [reflexivity|]. unfold root_set, root_element. cbn [find]. rewrite K.
    split; [reflexivity|]. split; [reflexivity|]. split; [apply (Valid g it t s); auto|]. split; [discriminate|].
    split; [repeat constructor; intros []|]. split; [repeat constructor; apply within_self|]. split; [exact D|]. split; [auto|]. split; [reflexivity|].
    split; [intros _; cbn [flat_map]; rewrite app_nil_r; split; [exact D|repeat constructor; exact K]|].
    split; [reflexivity|]. unfold plain. rewrite Ei. discriminate.
Qed.
