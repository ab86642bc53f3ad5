(** An XML document is read in one way. *)
From Verif Require Import Base Text_Model Text_Spec Text_Proofs3 Api_Model Api_Spec Writer_Model Writer_Spec Root_Model Root_Spec Root_Proofs Source_Model Source_Spec.
Local Open Scope N_scope.

Definition closing (x : bytes) : Prop := match x with c :: _ => c = 62 \/ c = 47 | [] => False end.
Lemma close1 : forall s : bytes, closing ([62] ++ s). Proof. intros s. left. reflexivity. Qed.
Lemma close2 : forall s : bytes, closing (txt "/>" ++ s). Proof. intros s. right. reflexivity. Qed.
Lemma close3 : closing (txt "/>"). Proof. right. reflexivity. Qed.
Lemma name_stop : forall n m x y : bytes, Forall name_byte n -> Forall name_byte m ->
  ~ name_byte (hd 0 x) -> ~ name_byte (hd 0 y) -> x <> [] -> y <> [] -> n ++ x = m ++ y -> n = m /\ x = y.
Proof.
  induction n as [|a n IH]; intros [|b m] x y A B X Y X' Y' Q; cbn [app] in Q.
  - auto.
  - exfalso. subst x. apply X. exact (Forall_inv B).
  - exfalso. subst y. apply Y. exact (Forall_inv A).
  - injection Q as <- Q. destruct (IH m x y (Forall_inv_tail A) (Forall_inv_tail B) X Y X' Y' Q) as (-> & ->). auto.
Qed.
Lemma attrs_end : forall s l, xml_attrs s l -> forall s' l' x x', xml_attrs s' l' -> closing x -> closing x' -> s ++ x = s' ++ x' ->
  s = s' /\ l = l' /\ x = x'.
Proof.
  induction 1 as [|n e v s l A B C D IH]; intros s' l' x x' H' K K' Q.
  - inversion H' as [|n2 e2 v2 s2 l2 A2 B2 C2 D2]; subst; [auto|]. exfalso. cbn [app] in Q. subst x. cbn in K. destruct K as [K|K]; discriminate K.
  - inversion H' as [|n2 e2 v2 s2 l2 A2 B2 C2 D2]; subst.
    + exfalso. cbn [app] in Q. subst x'. cbn in K'. destruct K' as [K'|K']; discriminate K'.
    + change (txt "=""") with [61; 34] in *. cbn [app] in Q. injection Q as Q. rewrite <- !app_assoc in Q. cbn [app] in Q.
      apply name_ends in Q; [|apply qname_not; [assumption|exact not61]|apply qname_not; [assumption|exact not61]]. destruct Q as (<- & Q). injection Q as Q.
      rewrite <- !app_assoc in Q. cbn [app] in Q. change (e ++ [34] ++ s ++ x = e2 ++ [34] ++ s2 ++ x') in Q.
      destruct (xml_value_ends _ _ B _ _ _ _ B2 Q) as (<- & <- & Q'). destruct (IH _ _ _ _ D2 K K' Q') as (-> & -> & ->). auto.
Qed.
Lemma closing_stop : forall x, closing x -> ~ name_byte (hd 0 x) /\ x <> [].
Proof. intros [|c x] K; [destruct K|]. split; [|discriminate]. unfold name_byte. cbn [hd]. destruct K as [->| ->]; lia. Qed.
Lemma attrs_stop : forall s l x, xml_attrs s l -> closing x -> ~ name_byte (hd 0 (s ++ x)) /\ s ++ x <> [].
Proof. intros s l x H K. destruct H; [apply closing_stop, K|]. split; [|discriminate]. unfold name_byte. cbn [hd app]. lia. Qed.
Lemma tag_ends : forall t n l t' n' l' x x', xml_tag t n l -> xml_tag t' n' l' -> closing x -> closing x' -> t ++ x = t' ++ x' ->
  t = t' /\ n = n' /\ l = l' /\ x = x'.
Proof.
  intros t n l t' n' l' x x' (s & -> & (_ & Q) & A) (s' & -> & (_ & Q') & A') K K' E. cbn [app] in E. injection E as E. rewrite <- !app_assoc in E.
  destruct (attrs_stop _ _ _ A K) as (P1 & P2). destruct (attrs_stop _ _ _ A' K') as (P3 & P4).
  destruct (name_stop _ _ _ _ Q Q' P1 P3 P2 P4 E) as (-> & E2). destruct (attrs_end _ _ A _ _ _ _ A' K K' E2) as (-> & -> & ->). auto.
Qed.
Lemma tag_starts : forall t n l x, xml_tag t n l -> exists c y, t ++ x = 60 :: c :: y /\ c <> 47.
Proof.
  intros t n l x (s & -> & (N0 & Q) & A). destruct n as [|c n]; [contradiction|]. exists c, (n ++ s ++ x). cbn [app]. rewrite <- !app_assoc.
  split; [reflexivity|]. pose proof (Forall_inv Q) as H. unfold name_byte in H. lia.
Qed.
Lemma ns_name_unique : forall n p l p' l', ns_name n p l -> ns_name n p' l' -> p = p' /\ l = l'.
Proof.
  intros n p l p' l' ((A & C) & B) ((A' & C') & B'). destruct p as [p|], p' as [q|].
  - destruct B as ((_ & B1) & ->), B' as ((_ & B2) & B'). cbn [app] in B'. apply name_ends in B'; [|exact B1|exact B2]. destruct B' as (-> & ->). auto.
  - exfalso. destruct B as (_ & ->). apply C'. rewrite <- B'. apply in_or_app. right. left. reflexivity.
  - exfalso. destruct B' as (_ & ->). apply C. rewrite <- B. apply in_or_app. right. left. reflexivity.
  - subst. auto.
Qed.
Lemma ref_starts : forall c r, In (c, r) references -> exists b, r = 38 :: b.
Proof. intros c r I. cbn in I. destruct I as [Q|[Q|[Q|[Q|[Q|[Q|[Q|[]]]]]]]]; injection Q as <- <-; eexists; reflexivity. Qed.
Lemma ref_same : forall c r c' r' (x y : bytes), In (c, r) references -> In (c', r') references -> r ++ x = r' ++ y -> c = c' /\ x = y.
Proof.
  intros c r c' r' x y A B Q. cbn in A, B.
  destruct A as [P|[P|[P|[P|[P|[P|[P|[]]]]]]]]; injection P as <- <-;
  destruct B as [R|[R|[R|[R|[R|[R|[R|[]]]]]]]]; injection R as <- <-; try (apply app_inv_head in Q; split; [reflexivity|exact Q]);
  exfalso; simpl in Q; discriminate Q.
Qed.
Lemma reads_starts : forall st s l, reads st s l -> st = [] /\ s = [] /\ l = [] \/
  exists m sc st', st = (m, sc) :: st' /\
  ((exists c s' l', s = c :: s' /\ c <> 60 /\ c <> 38 /\ l = XChars [c] :: l' /\ reads st s' l') \/
   (exists c r s' l', s = r ++ s' /\ In (c, r) references /\ l = XChars [c] :: l' /\ reads st s' l') \/
   (exists t n p local al x l', s = t ++ x /\ closing x /\ xml_tag t n al /\ ns_name n p local /\
      ((exists s' k, x = 62 :: s' /\ l = start_event local p al sc :: k /\ reads ((n, sax_namespaces al ++ sc) :: st) s' k /\ l' = k) \/
       (exists s' k, x = 47 :: 62 :: s' /\ l = start_event local p al sc :: XEnd :: k /\ reads st s' k /\ l' = k))) \/
   (exists s' l', s = 60 :: 47 :: m ++ 62 :: s' /\ l = XEnd :: l' /\ reads st' s' l')).
Proof.
  intros st s l H. inversion H as [|[m sc] st' c s' l' A B C D|[m sc] st' c r s' l' A B|m sc st' t n p local al s' l' A B C D|m sc st' t n p local al s' l' A B C D|m sc st' s' l' A]; subst; [left; auto|right..];
  exists m, sc, st'; (split; [reflexivity|]).
  - left. exists c, s', l'. auto.
  - right; left. exists c, r, s', l'. auto.
  - right; right; left. exists t, n, p, local, al, ([62] ++ s'), l'. split; [reflexivity|]. split; [left; reflexivity|]. split; [exact A|]. split; [exact C|].
    left. exists s', l'. auto.
  - right; right; left. exists t, n, p, local, al, (txt "/>" ++ s'), l'. split; [reflexivity|]. split; [right; reflexivity|]. split; [exact A|]. split; [exact C|].
    right. exists s', l'. auto.
  - right; right; right. exists s', l'. auto.
Qed.
Lemma reads_det : forall st s l, reads st s l -> Forall (fun e => Forall name_byte (fst e)) st -> forall l', reads st s l' -> l = l'.
Proof.
  assert (TN : forall t n al, xml_tag t n al -> Forall name_byte n) by (intros t n al (s & _ & (_ & Q) & _); exact Q).
  induction 1 as [|[m sc] st c s l A B C D IH|[m sc] st c r s l A B IH|m sc st t n p local al s l A B C D IH|m sc st t n p local al s l A B C D IH|m sc st s l A IH]; intros F l2 H2;
  destruct (reads_starts _ _ _ H2) as [(E1 & E2 & E3)|(m2 & sc2 & st2 & E1 & K)]; try discriminate E1; [subst; reflexivity|..];
  injection E1 as <- <- <-; destruct K as [(c2 & s2 & k2 & E & X & Y & -> & R)|[(c2 & r2 & s2 & k2 & E & I2 & -> & R)|[(t2 & n2 & p2 & o2 & al2 & x2 & k2 & E & CL & T2 & NN & K)|(s2 & k2 & E & -> & R)]]].
  - injection E as <- <-. f_equal. apply IH; assumption.
  - exfalso. destruct (ref_starts _ _ I2) as (b & ->). injection E as E _. contradiction.
  - exfalso. destruct (tag_starts _ _ _ x2 T2) as (c2 & y & Q & _). rewrite Q in E. injection E as E _. contradiction.
  - exfalso. injection E as E _. contradiction.
  - exfalso. destruct (ref_starts _ _ A) as (b & ->). injection E as E _. symmetry in E. contradiction.
  - destruct (ref_same _ _ _ _ _ _ A I2 E) as (<- & <-). f_equal. apply IH; assumption.
  - exfalso. destruct (tag_starts _ _ _ x2 T2) as (c2 & y & Q & _). rewrite Q in E. destruct (ref_starts _ _ A) as (b & ->). discriminate E.
  - exfalso. destruct (ref_starts _ _ A) as (b & ->). discriminate E.
  - exfalso. destruct (tag_starts _ _ _ ([62] ++ s) A) as (c3 & y & Q & _). rewrite Q in E. injection E as E _. symmetry in E. contradiction.
  - exfalso. destruct (tag_starts _ _ _ ([62] ++ s) A) as (c3 & y & Q & _). rewrite Q in E. destruct (ref_starts _ _ I2) as (b & ->). discriminate E.
  - destruct (tag_ends _ _ _ _ _ _ _ _ A T2 (close1 s) CL E) as (<- & <- & <- & EX).
    destruct (ns_name_unique _ _ _ _ _ C NN) as (<- & <-).
    destruct K as [(s3 & k3 & -> & -> & R3 & _)|(s3 & k3 & -> & -> & R3 & _)]; [|discriminate EX]. injection EX as <-. f_equal.
    apply IH; [constructor; [exact (TN _ _ _ A)|exact F]|exact R3].
  - exfalso. destruct (tag_starts _ _ _ ([62] ++ s) A) as (c3 & y & Q & NQ). rewrite Q in E. injection E as E _. contradiction.
  - exfalso. destruct (tag_starts _ _ _ (txt "/>" ++ s) A) as (c3 & y & Q & _). rewrite Q in E. injection E as E _. symmetry in E. contradiction.
  - exfalso. destruct (tag_starts _ _ _ (txt "/>" ++ s) A) as (c3 & y & Q & _). rewrite Q in E. destruct (ref_starts _ _ I2) as (b & ->). discriminate E.
  - destruct (tag_ends _ _ _ _ _ _ _ _ A T2 (close2 s) CL E) as (<- & <- & <- & EX).
    destruct (ns_name_unique _ _ _ _ _ C NN) as (<- & <-).
    destruct K as [(s3 & k3 & -> & -> & R3 & _)|(s3 & k3 & -> & -> & R3 & _)]; [discriminate EX|]. injection EX as <-. do 2 f_equal. apply IH; assumption.
  - exfalso. destruct (tag_starts _ _ _ (txt "/>" ++ s) A) as (c3 & y & Q & NQ). rewrite Q in E. injection E as E _. contradiction.
  - exfalso. injection E as E _. symmetry in E. contradiction.
  - exfalso. destruct (ref_starts _ _ I2) as (b & ->). discriminate E.
  - exfalso. destruct (tag_starts _ _ _ x2 T2) as (c3 & y & Q & NQ). rewrite Q in E. injection E as E _. symmetry in E. contradiction.
  - injection E as E. pose proof (Forall_inv F) as FN. cbn [fst] in FN.
    apply app_inv_head in E. injection E as <-. f_equal. apply IH; [exact (Forall_inv_tail F)|exact R].
Qed.
Lemma document_det : forall d l l', xml_document d l -> xml_document d l' -> l = l'.
Proof.
  intros d l l' (t & n & p & o & al & T & _ & NN & K) (t2 & n2 & p2 & o2 & al2 & T2 & _ & NN2 & K2).
  assert (TN : Forall name_byte n) by (destruct T as (s & _ & (_ & Q) & _); exact Q).
  destruct K as [(s & k & -> & R & ->)|(-> & ->)]; destruct K2 as [(s2 & k2 & E & R2 & ->)|(E & ->)].
  - destruct (tag_ends _ _ _ _ _ _ _ _ T T2 (close1 _) (close1 _) E) as (<- & <- & <- & EX). injection EX as <-.
    destruct (ns_name_unique _ _ _ _ _ NN NN2) as (<- & <-). f_equal. apply (reads_det _ _ _ R); [|exact R2]. constructor; [exact TN|constructor].
  - exfalso. destruct (tag_ends _ _ _ _ _ _ _ _ T T2 (close1 _) close3 E) as (_ & _ & _ & EX). discriminate EX.
  - exfalso. destruct (tag_ends _ _ _ _ _ _ _ _ T T2 close3 (close1 _) E) as (_ & _ & _ & EX). discriminate EX.
  - destruct (tag_ends _ _ _ _ _ _ _ _ T T2 close3 close3 E) as (<- & <- & <- & _).
    destruct (ns_name_unique _ _ _ _ _ NN NN2) as (<- & <-). reflexivity.
Qed.
(** joining pieces of text changes nothing *)
Lemma joined_extract : forall l k, joined l k -> forall s, extract_events s l = extract_events s k.
Proof.
  induction 1 as [|e l k H IH|a b l k H IH]; intros s; [reflexivity| |].
  - cbn [extract_events]. destruct (extract_event s e); cbn [obind]; [apply IH|reflexivity].
  - rewrite <- IH. cbn [extract_events extract_event obind]. rewrite app_assoc. reflexivity.
Qed.
