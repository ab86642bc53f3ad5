(** Lemmas about trees: nodes, numbers, seek and prune. *)
From Verif Require Import Base Text_Model Api_Model Transform_Model Transform_Spec.
From Coq Require Import Permutation.

Lemma tree_in (P : tree -> Prop) : (forall i l ch, (forall c, In c ch -> P c) -> P (Node i l ch)) -> forall t, P t.
Proof.
  intros H. fix IH 1. intros [i l ch]. apply H.
  induction ch as [|c ch IHc]; intros d D; [destruct D|].
  destruct D as [E|D]; [rewrite <- E; apply IH|exact (IHc d D)].
Qed.

Lemma ids_nodes t : ids t = map root_id (nodes_of t).
Proof.
  induction t as [i l ch IH] using tree_in. cbn. f_equal.
  rewrite flat_map_concat_map, (flat_map_concat_map _ ch), concat_map, map_map. f_equal.
  apply map_ext_in. exact IH.
Qed.
Lemma ids_nodes_f F : flat_map ids F = map root_id (flat_map nodes_of F).
Proof. induction F as [|t F IH]; cbn; [reflexivity|]. rewrite map_app, IH, ids_nodes. reflexivity. Qed.
Lemma in_ids i t : In i (ids t) <-> exists r, within r t /\ root_id r = i.
Proof. rewrite ids_nodes, in_map_iff. unfold within. split; intros (r & A & B); exists r; auto. Qed.
Lemma in_ids_f i F : In i (flat_map ids F) <-> exists r, In r (flat_map nodes_of F) /\ root_id r = i.
Proof. rewrite ids_nodes_f, in_map_iff. split; intros (r & A & B); exists r; auto. Qed.
Lemma within_self t : within t t.
Proof. destruct t. left. reflexivity. Qed.
Lemma within_root r t : within r t -> In (root_id r) (ids t).
Proof. intros W. apply in_ids. exists r. auto. Qed.
Lemma within_trans p q r : within p q -> within q r -> within p r.
Proof.
  induction r as [i l ch IH] using tree_in. intros A [B|B].
  - rewrite <- B in A. exact A.
  - right. apply in_flat_map in B. destruct B as (c & C & B). apply in_flat_map. exists c. split; [exact C|]. apply (IH c C A B).
Qed.
Lemma within_ids r t : within r t -> incl (ids r) (ids t).
Proof. intros W i I. apply in_ids in I. destruct I as (p & P & <-). apply within_root. exact (within_trans _ _ _ P W). Qed.
Lemma root_ids t : In (root_id t) (ids t).
Proof. destruct t. left. reflexivity. Qed.
Lemma ids_root t : ids t = root_id t :: flat_map ids (children t).
Proof. destruct t. reflexivity. Qed.

(** a forest: [In r (flat_map nodes_of F)] *)
Definition occurs (r : tree) (F : list tree) : Prop := In r (flat_map nodes_of F).
Lemma occurs_in r F : occurs r F <-> exists t, In t F /\ within r t.
Proof. unfold occurs. rewrite in_flat_map. reflexivity. Qed.
Lemma occurs_within p r F : within p r -> occurs r F -> occurs p F.
Proof. rewrite !occurs_in. intros W (t & T & V). exists t. split; [exact T|]. exact (within_trans _ _ _ W V). Qed.
Lemma occurs_ids r F : occurs r F -> incl (ids r) (flat_map ids F).
Proof. rewrite occurs_in. intros (t & T & V) i I. apply in_flat_map. exists t. split; [exact T|]. exact (within_ids _ _ V i I). Qed.
Lemma occurs_perm r F G : Permutation F G -> occurs r F -> occurs r G.
Proof. rewrite !occurs_in. intros P (t & T & V). exists t. split; [exact (Permutation_in _ P T)|exact V]. Qed.
Lemma perm_ids F G : Permutation F G -> Permutation (flat_map ids F) (flat_map ids G).
Proof. intros P. apply Permutation_flat_map. exact P. Qed.
Lemma NoDup_app_iff {A} (l r : list A) : NoDup (l ++ r) <-> NoDup l /\ NoDup r /\ (forall x, In x l -> In x r -> False).
Proof.
  induction l as [|a l IH]; cbn.
  - split; [intros H; repeat split; [constructor|exact H|intros x []]|intros (_ & H & _); exact H].
  - split.
    + intros H. apply NoDup_cons_iff in H as (A1 & H). apply IH in H as (B & C & D). rewrite in_app_iff in A1.
      repeat split; [apply NoDup_cons_iff; auto|exact C|]. intros x [<-|X] Y; [apply A1; auto|exact (D x X Y)].
    + intros (H & C & D). apply NoDup_cons_iff in H as (A1 & B). apply NoDup_cons_iff. split.
      * rewrite in_app_iff. intros [X|X]; [exact (A1 X)|exact (D a (or_introl eq_refl) X)].
      * apply IH. repeat split; [exact B|exact C|]. intros x X Y. exact (D x (or_intror X) Y).
Qed.

Lemma seek_none i t : ~ In i (ids t) -> seek i t = [].
Proof.
  induction t as [j l ch IH] using tree_in. cbn. intros H. destruct (Nat.eqb_spec i j) as [->|]; [destruct H; auto|].
  assert (H1 : forall c, In c ch -> ~ In i (ids c)) by (intros c C I; apply H; right; apply in_flat_map; exists c; auto). clear H.
  induction ch as [|c ch IHc]; cbn; [reflexivity|].
  rewrite (IH c (or_introl eq_refl) (H1 c (or_introl eq_refl))). apply IHc; intros d D; [apply IH|apply H1]; right; exact D.
Qed.
Lemma seek_none_f i F : ~ In i (flat_map ids F) -> flat_map (seek i) F = [].
Proof.
  induction F as [|t F IH]; cbn; [reflexivity|]. rewrite in_app_iff. intros H. rewrite seek_none, IH by auto. reflexivity.
Qed.
Lemma seek_some r t : NoDup (ids t) -> within r t -> seek (root_id r) t = [r].
Proof.
  induction t as [j l ch IH] using tree_in. intros D [W|W].
  - rewrite <- W. cbn. rewrite Nat.eqb_refl. reflexivity.
  - cbn in D. apply NoDup_cons_iff in D as (J & D). cbn.
    assert (I : In (root_id r) (flat_map ids ch)) by (apply in_ids_f; exists r; auto).
    destruct (Nat.eqb_spec (root_id r) j) as [E|_]; [rewrite E in I; contradiction|]. clear J I.
    induction ch as [|c ch IHc]; cbn in *; [destruct W|]. apply NoDup_app_iff in D as (D1 & D2 & D3).
    apply in_app_iff in W as [W|W].
    + rewrite (IH c (or_introl eq_refl) D1 W), seek_none_f; [reflexivity|]. intros I. exact (D3 _ (within_root _ _ W) I).
    + rewrite (IHc (fun d X => IH d (or_intror X)) D2 W), seek_none; [reflexivity|]. intros I. apply (D3 _ I). apply in_ids_f. exists r. auto.
Qed.
Lemma seek_some_f r F : NoDup (flat_map ids F) -> occurs r F -> flat_map (seek (root_id r)) F = [r].
Proof.
  unfold occurs. induction F as [|t F IH]; cbn; intros D W; [destruct W|]. apply NoDup_app_iff in D as (D1 & D2 & D3).
  apply in_app_iff in W as [W|W].
  - rewrite (seek_some _ _ D1 W), seek_none_f; [reflexivity|]. intros I. exact (D3 _ (within_root _ _ W) I).
  - rewrite (IH D2 W), seek_none; [reflexivity|]. intros I. apply (D3 _ I). apply in_ids_f. exists r. auto.
Qed.
Lemma node_unique q r F : NoDup (flat_map ids F) -> occurs q F -> occurs r F -> root_id q = root_id r -> q = r.
Proof. intros D Q R E. pose proof (seek_some_f _ _ D Q) as A. rewrite E, (seek_some_f _ _ D R) in A. injection A as ->. reflexivity. Qed.

Lemma prune_none i t : ~ In i (ids t) -> prune i t = [t].
Proof.
  induction t as [j l ch IH] using tree_in. cbn. intros H. destruct (Nat.eqb_spec i j) as [->|]; [destruct H; auto|].
  assert (H1 : forall c, In c ch -> ~ In i (ids c)) by (intros c C I; apply H; right; apply in_flat_map; exists c; auto). clear H.
  do 2 f_equal. induction ch as [|c ch IHc]; cbn; [reflexivity|].
  rewrite (IH c (or_introl eq_refl) (H1 c (or_introl eq_refl))). cbn. f_equal. apply IHc; intros d D; [apply IH|apply H1]; right; exact D.
Qed.
Lemma prune_none_f i F : ~ In i (flat_map ids F) -> flat_map (prune i) F = F.
Proof. induction F as [|t F IH]; cbn; [reflexivity|]. rewrite in_app_iff. intros H. rewrite prune_none, IH by auto. reflexivity. Qed.
(** what is left keeps what has nothing to do with the node *)
Lemma prune_keeps i q t : within q t -> ~ In i (ids q) -> (forall p, within p t -> root_id p = i -> ~ In (root_id q) (ids p)) ->
  occurs q (prune i t).
Proof.
  induction t as [j l ch IH] using tree_in. intros W N1 N2. destruct W as [W|W].
  - rewrite prune_none; [|rewrite W; exact N1]. rewrite W. apply occurs_in. exists q. split; [left; reflexivity|apply within_self].
  - cbn. destruct (Nat.eqb_spec i j) as [->|_].
    + destruct (N2 (Node j l ch) (or_introl eq_refl) eq_refl). right. apply in_ids_f. exists q. auto.
    + apply occurs_in. eexists. split; [left; reflexivity|]. right. apply in_flat_map in W. destruct W as (c & C & W).
      apply (proj2 (occurs_in q (flat_map (prune i) ch))).
      assert (O : occurs q (prune i c)).
      { apply (IH c C W N1). intros p P E. apply (N2 p); [|exact E]. right. apply in_flat_map. exists c. auto. }
      apply occurs_in in O. destruct O as (d & D & V). exists d. split; [|exact V]. apply in_flat_map. exists c. auto.
Qed.
Lemma prune_keeps_f i q F : occurs q F -> ~ In i (ids q) -> (forall p, occurs p F -> root_id p = i -> ~ In (root_id q) (ids p)) ->
  occurs q (flat_map (prune i) F).
Proof.
  intros O N1 N2. apply occurs_in in O. destruct O as (t & T & W).
  assert (O : occurs q (prune i t)).
  { apply (prune_keeps i q t W N1). intros p P E. apply (N2 p); [|exact E]. apply occurs_in. exists t. auto. }
  apply occurs_in in O. destruct O as (d & D & V). apply occurs_in. exists d. split; [|exact V]. apply in_flat_map. exists t. auto.
Qed.
(** and the rest is the rest *)
Lemma prune_perm r t : NoDup (ids t) -> within r t -> Permutation (ids t) (ids r ++ flat_map ids (prune (root_id r) t)).
Proof.
  induction t as [j l ch IH] using tree_in. intros D [W|W].
  - rewrite <- W. cbn. rewrite Nat.eqb_refl. cbn. rewrite app_nil_r. reflexivity.
  - cbn in D. apply NoDup_cons_iff in D as (J & D). cbn.
    assert (I : In (root_id r) (flat_map ids ch)) by (apply in_ids_f; exists r; auto).
    destruct (Nat.eqb_spec (root_id r) j) as [E|_]; [rewrite E in I; contradiction|]. cbn. rewrite app_nil_r.
    apply Permutation_cons_app. clear J I.
    induction ch as [|c ch IHc]; cbn in *; [destruct W|]. apply NoDup_app_iff in D as (D1 & D2 & D3).
    rewrite flat_map_app. apply in_app_iff in W as [W|W].
    + rewrite prune_none_f by (intros I; exact (D3 _ (within_root _ _ W) I)).
      rewrite app_assoc. apply Permutation_app_tail. exact (IH c (or_introl eq_refl) D1 W).
    + rewrite (prune_none _ c) by (intros I; apply (D3 _ I); apply in_ids_f; exists r; auto). cbn. rewrite app_nil_r.
      rewrite (IHc (fun d X => IH d (or_intror X)) D2 W), app_assoc, (Permutation_app_comm (ids c)), <- app_assoc. reflexivity.
Qed.
Lemma prune_perm_f r F : NoDup (flat_map ids F) -> occurs r F -> Permutation (flat_map ids F) (flat_map ids (r :: flat_map (prune (root_id r)) F)).
Proof.
  unfold occurs. induction F as [|t F IH]; cbn; intros D W; [destruct W|]. apply NoDup_app_iff in D as (D1 & D2 & D3).
  rewrite flat_map_app. apply in_app_iff in W as [W|W].
  - rewrite prune_none_f by (intros I; exact (D3 _ (within_root _ _ W) I)).
    rewrite app_assoc. apply Permutation_app_tail. exact (prune_perm _ _ D1 W).
  - rewrite (prune_none _ t) by (intros I; apply (D3 _ I); apply in_ids_f; exists r; auto). cbn. rewrite app_nil_r.
    rewrite (IH D2 W). cbn. rewrite app_assoc, (Permutation_app_comm (ids t)), <- app_assoc. reflexivity.
Qed.
