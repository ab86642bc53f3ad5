(** Reading start tags: written attributes are read back, in one way only. *)
From Verif Require Import Base Text_Model Text_Spec Text_Proofs3 Api_Model Api_Spec Writer_Model Writer_Spec Root_Model Root_Spec.
Local Open Scope N_scope.

Lemma xml_value_split : forall e v, xml_value e v -> e = [] /\ v = [] \/
  exists c r e' v', e = r ++ e' /\ v = c :: v' /\ xml_value e' v' /\
    (r = [c] /\ 32 <= c /\ c <> 60 /\ c <> 38 /\ c <> 34 \/ c = 32 /\ (r = [9] \/ r = [10] \/ r = [13]) \/ In (c, r) references).
Proof.
  intros e v H. inversion H as [|c e' v' A B C D E|c e' v' A B|c r e' v' A B]; subst; [left; split; reflexivity| | |]; right.
  - exists c, [c], e', v'. repeat split; try reflexivity; [exact E|]. left. repeat split; assumption.
  - exists 32, [c], e', v'. repeat split; try reflexivity; [exact B|]. right; left. split; [reflexivity|].
    destruct A as [->|[->| ->]]; tauto.
  - exists c, r, e', v'. repeat split; try reflexivity; [exact B|]. right; right. exact A.
Qed.
(* two readings of a text that is followed by a quote agree *)
Lemma xml_value_ends : forall e v, xml_value e v -> forall e' v' x x', xml_value e' v' ->
  e ++ [34] ++ x = e' ++ [34] ++ x' -> e = e' /\ v = v' /\ x = x'.
Proof.
  assert (REF : forall c r, In (c, r) references -> exists b, r = 38 :: b /\ ~ In 59 (removelast b) /\ ~ In 34 b).
  { intros c r I. cbn in I. destruct I as [Q|[Q|[Q|[Q|[Q|[Q|[Q|[]]]]]]]]; injection Q as <- <-; eexists; (split; [reflexivity|]); split;
    intros F; vm_compute in F; repeat (destruct F as [F|F]; [discriminate F|]); destruct F. }
  induction 1 as [|c e v A B C D E IH|c e v A B IH|c r e v A B IH]; intros e' v' x x' H' Q.
  - destruct (xml_value_split _ _ H') as [(-> & ->)|(c & r & e2 & v2 & -> & -> & _ & K)].
    + injection Q as Q. auto.
    + exfalso. destruct K as [(-> & K)|[(_ & K)|K]].
      * injection Q as Q1 Q2. subst c. tauto.
      * destruct K as [->|[->| ->]]; discriminate Q.
      * destruct (REF _ _ K) as (b & -> & _). discriminate Q.
  - destruct (xml_value_split _ _ H') as [(-> & ->)|(c2 & r & e2 & v2 & -> & -> & E2 & K)].
    + exfalso. injection Q as Q1 Q2. tauto.
    + destruct K as [(-> & K)|[(_ & K)|K]].
      * injection Q as <- Q. destruct (IH _ _ _ _ E2 Q) as (-> & -> & ->). auto.
      * exfalso. destruct K as [->|[->| ->]]; injection Q as Q1 Q2; subst c; lia.
      * exfalso. destruct (REF _ _ K) as (b & -> & _). injection Q as Q1 Q2. tauto.
  - destruct (xml_value_split _ _ H') as [(-> & ->)|(c2 & r & e2 & v2 & -> & -> & E2 & K)].
    + exfalso. injection Q as Q1 Q2. subst c. destruct A as [A|[A|A]]; discriminate A.
    + destruct K as [(-> & K)|[(-> & K)|K]].
      * exfalso. injection Q as Q1 Q2. subst c2. destruct A as [->|[->| ->]]; destruct K as (K & _); lia.
      * destruct K as [->|[->| ->]]; injection Q as <- Q; destruct (IH _ _ _ _ E2 Q) as (-> & -> & ->); auto.
      * exfalso. destruct (REF _ _ K) as (b & -> & _). injection Q as Q1 Q2. subst c. destruct A as [A|[A|A]]; discriminate A.
  - destruct (xml_value_split _ _ H') as [(-> & ->)|(c2 & r2 & e2 & v2 & -> & -> & E2 & K)].
    + exfalso. destruct (REF _ _ A) as (b & -> & _). discriminate Q.
    + assert (K2 : In (c2, r2) references).
      { destruct K as [(-> & K)|[(-> & K)|K]]; [exfalso|exfalso|exact K]; destruct (REF _ _ A) as (b & -> & _).
        - injection Q as Q1 Q2. subst c2. tauto.
        - destruct K as [->|[->| ->]]; discriminate Q. }
      assert (SAME : c = c2 /\ r = r2).
      { clear -A K2 Q. cbn in A, K2.
        destruct A as [P|[P|[P|[P|[P|[P|[P|[]]]]]]]]; injection P as <- <-;
        destruct K2 as [R|[R|[R|[R|[R|[R|[R|[]]]]]]]]; injection R as <- <-; try (split; reflexivity);
        exfalso; simpl in Q; discriminate Q. }
      destruct SAME as (<- & <-). rewrite <- !app_assoc in Q. apply app_inv_head in Q.
      destruct (IH _ _ _ _ E2 Q) as (-> & -> & ->). auto.
Qed.
Lemma name_ends : forall (c : N) (n m x y : bytes), ~ In c n -> ~ In c m -> n ++ c :: x = m ++ c :: y -> n = m /\ x = y.
Proof.
  intros c. induction n as [|a n IH]; intros [|b m] x y A B Q; cbn in Q.
  - injection Q as ->. auto.
  - injection Q as -> _. exfalso. apply B. left. reflexivity.
  - injection Q as <- _. exfalso. apply A. left. reflexivity.
  - injection Q as <- Q. destruct (IH m x y) as (-> & ->); auto; intros F; [apply A|apply B]; right; exact F.
Qed.
Lemma qname_not : forall (n : bytes) (c : N), qname n -> ~ name_byte c -> ~ In c n.
Proof. intros n c (_ & F) K I. apply K. exact (proj1 (Forall_forall _ _) F c I). Qed.
Lemma not61 : ~ name_byte 61. Proof. unfold name_byte. lia. Qed.
Lemma not32 : ~ name_byte 32. Proof. unfold name_byte. lia. Qed.
Lemma xml_attrs_unique : forall s l, xml_attrs s l -> forall l', xml_attrs s l' -> l = l'.
Proof.
  induction 1 as [|n e v s l A B C D IH]; intros l' H'.
  - inversion H'. reflexivity.
  - inversion H' as [Q|n2 e2 v2 s2 l2 A2 B2 C2 D2 Q]; subst l'.
    change (txt "=""") with [61; 34] in Q. cbn [app] in Q. try injection Q as Q.
    apply name_ends in Q; try (apply qname_not; [assumption|exact not61]). destruct Q as (-> & Q). injection Q as Q.
    symmetry in Q. change (e ++ [34] ++ s = e2 ++ [34] ++ s2) in Q.
    destruct (xml_value_ends _ _ B _ _ _ _ B2 Q) as (-> & -> & ->). rewrite (IH _ D2). reflexivity.
Qed.
Lemma xml_tag_unique : forall s n l n' l', xml_tag s n l -> xml_tag s n' l' -> n = n' /\ l = l'.
Proof.
  intros s n l n' l' (t & E & Q & A) (t' & E' & Q' & A'). rewrite E in E'. injection E' as E'.
  assert (NT : n = n' /\ t = t').
  { assert (H : forall t l, xml_attrs t l -> t = [] \/ exists x, t = 32 :: x).
    { intros t0 l0 K. destruct K; [left; reflexivity|right; eexists; reflexivity]. }
    assert (P : ~ In 32 n) by (apply qname_not; [assumption|exact not32]). assert (P' : ~ In 32 n') by (apply qname_not; [assumption|exact not32]).
    destruct (H _ _ A) as [->|(x & ->)], (H _ _ A') as [->|(y & ->)].
    - rewrite !app_nil_r in E'. auto.
    - exfalso. apply P. rewrite app_nil_r in E'. rewrite E'. apply in_or_app. right. left. reflexivity.
    - exfalso. apply P'. rewrite app_nil_r in E'. rewrite <- E'. apply in_or_app. right. left. reflexivity.
    - destruct (name_ends _ _ _ _ _ P P' E') as (-> & ->). auto. }
  destruct NT as (-> & ->). split; [reflexivity|]. exact (xml_attrs_unique _ _ A _ A').
Qed.
Lemma esc_attr_read : forall v, xml_chars v -> xml_value (esc_attr v) v.
Proof.
  induction v as [|c v IH]; intros T; [constructor|]. pose proof (Forall_inv T) as C. pose proof (Forall_inv_tail T) as T'. specialize (IH T').
  unfold esc_attr in *. cbn [flat_map].
  repeat match goal with |- context [if (c =? ?k) then _ else _] => let J := fresh in destruct (c =? k) eqn:J;
    [apply N.eqb_eq in J; subst c; apply xv_ref; [cbn; tauto|exact IH]|apply N.eqb_neq in J] end.
  cbn [app]. apply xv_plain; auto; lia.
Qed.
Lemma attrs_read : forall l, Forall (fun p => qname (fst p) /\ xml_chars (snd p)) l -> NoDup (map fst l) -> xml_attrs (attrs l) l.
Proof.
  induction l as [|(n, v) l IH]; intros F D; [constructor|]. cbn [map fst] in D. inversion D as [|x y X Y]; subst.
  destruct (Forall_inv F) as (A & B). cbn [fst snd] in A, B.
  change (attrs ((n, v) :: l)) with (attr (n, v) ++ attrs l). unfold attr. cbn [fst snd]. rewrite <- !app_assoc.
  apply xa_cons; auto; [apply esc_attr_read, B|]. apply IH; [exact (Forall_inv_tail F)|exact Y].
Qed.
Lemma xml_attrs_nodup : forall s l, xml_attrs s l -> NoDup (map fst l).
Proof. induction 1; cbn [map fst]; constructor; assumption. Qed.
Lemma attrs_inv : forall L l, Forall (fun p => qname (fst p) /\ xml_chars (snd p)) L -> xml_attrs (attrs L) l -> l = L.
Proof.
  induction L as [|(n, v) L IH]; intros l F H; [inversion H; reflexivity|].
  destruct (Forall_inv F) as (A & B). cbn [fst snd] in A, B.
  change (attrs ((n, v) :: L)) with (([32] ++ n ++ txt "=""" ++ esc_attr v ++ [34]) ++ attrs L) in H.
  inversion H as [Q|n2 e2 v2 s2 l2 A2 B2 C2 D2 Q].
  change (txt "=""") with [61; 34] in Q. cbn [app] in Q. rewrite <- !app_assoc in Q. cbn [app] in Q. try injection Q as Q.
  apply name_ends in Q; [|apply qname_not; [assumption|exact not61]|apply qname_not; [assumption|exact not61]]. destruct Q as (-> & Q). injection Q as Q.
  rewrite <- app_assoc in Q. change (e2 ++ [34] ++ s2 = esc_attr v ++ [34] ++ attrs L) in Q.
  destruct (xml_value_ends _ _ B2 _ _ _ _ (esc_attr_read v B) Q) as (-> & -> & ->). rewrite (IH l2 (Forall_inv_tail F) D2). reflexivity.
Qed.
Lemma tag_inv : forall q L name l, qname q -> Forall (fun p => qname (fst p) /\ xml_chars (snd p)) L -> xml_tag ([60] ++ q ++ attrs L) name l ->
  name = q /\ l = L /\ NoDup (map fst L).
Proof.
  intros q L name l Hq F (t & E & Q & X). injection E as E.
  assert (P : ~ In 32 q) by (apply qname_not; [assumption|exact not32]). assert (P' : ~ In 32 name) by (apply qname_not; [assumption|exact not32]).
  assert (NT : q = name /\ attrs L = t).
  { assert (H : forall s, (exists l, xml_attrs s l) \/ s = attrs L -> s = [] \/ exists x, s = 32 :: x).
    { intros s [(k & K)| ->]; [destruct K; [left; reflexivity|right; eexists; reflexivity]|destruct L as [|p L]; [left; reflexivity|right; eexists; reflexivity]]. }
    destruct (H (attrs L) (or_intror eq_refl)) as [E1|(x & E1)], (H t (or_introl (ex_intro _ l X))) as [E2|(y & E2)]; rewrite E1, E2 in E; rewrite E1, E2.
    - rewrite !app_nil_r in E. auto.
    - exfalso. apply P. rewrite app_nil_r in E. rewrite E. apply in_or_app. right. left. reflexivity.
    - exfalso. apply P'. rewrite app_nil_r in E. rewrite <- E. apply in_or_app. right. left. reflexivity.
    - destruct (name_ends _ _ _ _ _ P P' E) as (-> & ->). auto. }
  destruct NT as (<- & <-). pose proof (attrs_inv _ _ F X) as ->. split; [reflexivity|]. split; [reflexivity|]. exact (xml_attrs_nodup _ _ X).
Qed.
