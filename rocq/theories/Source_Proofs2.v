(** What the parser delivers is written as XML that shows the source. *)
From Verif Require Import Base Text_Model Text_Spec Text_Proofs Text_Proofs3 Api_Model Api_Spec Writer_Model Writer_Spec Root_Model Root_Spec Root_Proofs Source_Model Source_Spec Source_Proofs.
Local Open Scope N_scope.

Lemma special_none : forall s, Forall (fun c => 32 <= c \/ c = 9 \/ c = 10) s -> strpbrk_special s = false -> Forall (fun c => c <> 60 /\ c <> 38) s.
Proof.
  induction s as [|c s IH]; intros F E; [constructor|]. pose proof (Forall_inv F) as C. cbn [strpbrk_special] in E.
  destruct (c =? 0) eqn:Z; [apply N.eqb_eq in Z; exfalso; destruct C as [C|[C|C]]; lia|]. destruct ((c =? 60) || (c =? 62) || (c =? 38)) eqn:X; [discriminate|].
  apply orb_false_iff in X as (X & X3). apply orb_false_iff in X as (X1 & X2). apply N.eqb_neq in X1, X3.
  constructor; [auto|]. apply IH; [exact (Forall_inv_tail F)|exact E].
Qed.
Lemma text_reads : forall s e st rest l, Forall (fun c => 32 <= c \/ c = 9 \/ c = 10) s -> reads (e :: st) rest l ->
  reads (e :: st) (process_text s ++ rest) (map (fun c => XChars [c]) s ++ l).
Proof.
  intros s e st rest l F R. unfold process_text. destruct (strpbrk_special s) eqn:E.
  - clear E. induction s as [|c s IH]; [exact R|]. pose proof (Forall_inv F) as C. specialize (IH (Forall_inv_tail F)).
    cbn [flat_map map app]. rewrite <- app_assoc. unfold esc_char.
    destruct (c =? 60) eqn:E1; [apply N.eqb_eq in E1; subst c; apply rd_ref; [cbn; tauto|exact IH]|].
    destruct (c =? 62) eqn:E2; [apply N.eqb_eq in E2; subst c; apply rd_ref; [cbn; tauto|exact IH]|].
    destruct (c =? 38) eqn:E3; [apply N.eqb_eq in E3; subst c; apply rd_ref; [cbn; tauto|exact IH]|].
    apply N.eqb_neq in E1, E3. apply rd_char; assumption.
  - pose proof (special_none s F E) as G. clear E. induction s as [|c s IH]; [exact R|].
    destruct (Forall_inv G) as (G1 & G2). cbn [map app]. apply rd_char; [exact (Forall_inv F)|exact G1|exact G2|].
    apply IH; [exact (Forall_inv_tail F)|exact (Forall_inv_tail G)].
Qed.
Lemma text_extract : forall s l t, extract_events t (map (fun c => XChars [c]) s ++ l) = extract_events (t ++ s) l.
Proof.
  induction s as [|c s IH]; intros l t; [rewrite app_nil_r; reflexivity|]. cbn [map app extract_events extract_event obind]. rewrite IH, <- app_assoc. reflexivity.
Qed.
Lemma prefixed_ns : forall p n, prefix_name p -> ncname n -> plain_start n ->
  qname (prefixed p n) /\ plain_start (prefixed p n) /\ ns_name (prefixed p n) (match p with [] => None | _ => Some p end) n.
Proof.
  intros p n P (Q & C) E. destruct p as [|c p]; [repeat split; assumption || apply Q || apply E|].
  destruct P as [P|(((_ & PB) & PC) & PE)]; [discriminate P|]. unfold prefixed. split; [split; [discriminate|]|split; [exact PE|]].
  - apply Forall_app. split; [exact PB|]. apply Forall_app. split; [|apply Q]. constructor; [|constructor]. unfold name_byte; vm_compute; repeat split; discriminate.
  - split; [split; assumption|]. split; [|reflexivity]. split; [split; [discriminate|exact PB]|exact PC].
Qed.
Lemma fine_scope : forall al, fine_attrs al -> sax_namespaces al = [].
Proof. intros al (F & _). induction F as [|(n, v) al (_ & D & _) F IH]; [reflexivity|]. cbn [sax_namespaces fst] in *. rewrite D. exact IH. Qed.
Lemma fine_tag : forall q al, qname q -> fine_attrs al -> xml_tag ([60] ++ q ++ attrs al) q al.
Proof.
  intros q al Q (F & ND). exists (attrs al). split; [reflexivity|]. split; [exact Q|]. apply attrs_read; [|exact ND].
  eapply Forall_impl; [|exact F]. intros p (A & _ & B). auto.
Qed.
Lemma attrs_app : forall a b, attrs (a ++ b) = attrs a ++ attrs b.
Proof. intros. unfold attrs. apply flat_map_app. Qed.
Lemma control_read : forall c, c < 32 -> read_escape (control_value c) = c.
Proof.
  intros c L. unfold control_value. rewrite <- (escape_attr_control true c L). apply (escape_ok true c). lia.
Qed.
Lemma not_escape : forall n p al sc l s, n <> txt "escape" -> extract_events s (start_event n p al sc :: l) = extract_events s l.
Proof.
  intros n p al sc l s H. unfold start_event. cbn [extract_events extract_event].
  destruct (beqb n (txt "escape")) eqn:E; [apply beqb_true in E; contradiction|reflexivity].
Qed.
Definition prefix_opt (p : bytes) : option bytes := match p with [] => None | _ => Some p end.
Lemma control_value_fine : forall c, c < 32 -> fine_attrs [(txt "char", control_value c)].
Proof.
  intros c L. split; [|constructor; [intros []|constructor]]. constructor; [|constructor]. cbn [fst snd]. split; [|split; [reflexivity|]].
  - split; [discriminate|]. repeat (constructor; [unfold name_byte; vm_compute; repeat split; discriminate|]). constructor.
  - unfold control_value, xml_chars. constructor; [left; lia|]. constructor; [left; lia|]. constructor; [left; lia|]. constructor; [|constructor].
    left. destruct (c mod 16 <? 10); lia.
Qed.
Lemma forest_reads : forall ts s, shows ts s -> forall pre m sc st rest l,
  (forall i, any_uses i ts -> prefix_name (pre i)) -> lookup_ns (prefix_opt (pre 0%nat)) sc = Some SRC_URI ->
  reads ((m, sc) :: st) rest l ->
  exists l', reads ((m, sc) :: st) (flat_map (tree_xml pre) ts ++ rest) l' /\ forall t, extract_events t l' = extract_events (t ++ s) l.
Proof.
  induction 1 as [|x ts r F H IH|c ts r L H IH|i n al ts r Nn En Ne Fa H IH|i n al pl kids k ts r Nn En Ne Fa HK IHK H IH]; intros pre m sc st rest l U SRC0 R.
  - exists l. split; [exact R|]. intros t. rewrite app_nil_r. reflexivity.
  - destruct (IH pre m sc st rest l (fun i V => U i (or_intror V)) SRC0 R) as (l1 & R1 & X1).
    exists (map (fun c => XChars [c]) x ++ l1). split.
    + cbn [flat_map tree_xml]. rewrite <- app_assoc. apply text_reads; [exact F|exact R1].
    + intros t. rewrite text_extract, X1, app_assoc. reflexivity.
  - destruct (IH pre m sc st rest l (fun i V => U i (or_intror V)) SRC0 R) as (l1 & R1 & X1).
    assert (P0 : prefix_name (pre 0%nat)) by (apply U; left; reflexivity).
    destruct (prefixed_ns (pre 0%nat) (txt "escape") P0) as (Q & E & NN).
    { split; [split; [discriminate|repeat (constructor; [unfold name_byte; vm_compute; repeat split; discriminate|]); constructor]|]. intros K. vm_compute in K. repeat (destruct K as [K|K]; [discriminate K|]). destruct K. }
    { split; discriminate. }
    eexists. split.
    + cbn [flat_map tree_xml]. rewrite <- !app_assoc. rewrite !(app_assoc [60]), (app_assoc _ (attrs _)). rewrite <- (app_assoc [60]).
      eapply rd_empty; [apply fine_tag; [exact Q|exact (control_value_fine c L)]|exact E|exact NN|exact R1].
    + intros t. unfold start_event. cbn [extract_events]. fold (prefix_opt (pre 0%nat)). rewrite (fine_scope _ (control_value_fine c L)). cbn [app]. rewrite SRC0.
      change (sax_attributes [(txt "char", control_value c)]) with [(txt "char", control_value c)].
      cbn [extract_event]. change (beqb (txt "escape") (txt "escape")) with true. change (beqb SRC_URI SRC_URI) with true. cbv iota. cbn [obind].
      rewrite (control_read c L). cbn [extract_events extract_event obind]. rewrite X1, <- app_assoc. reflexivity.
  - destruct (IH pre m sc st rest l (fun i V => U i (or_intror V)) SRC0 R) as (l1 & R1 & X1).
    destruct (prefixed_ns (pre i) n (U i (or_introl eq_refl)) Nn En) as (Q & E & NN).
    eexists. split.
    + cbn [flat_map tree_xml]. rewrite <- !app_assoc. rewrite !(app_assoc [60]), (app_assoc _ (attrs _)). rewrite <- (app_assoc [60]).
      eapply rd_empty; [apply fine_tag; [exact Q|exact Fa]|exact E|exact NN|exact R1].
    + intros t. rewrite not_escape by exact Ne. cbn [extract_events extract_event obind]. apply X1.
  - destruct (IH pre m sc st rest l (fun i V => U i (or_intror V)) SRC0 R) as (l1 & R1 & X1).
    destruct (prefixed_ns (pre i) n (U i (or_introl (or_introl eq_refl))) Nn En) as (Q & E & NN).
    assert (UK : forall j, any_uses j kids -> prefix_name (pre j)).
    { intros j V. apply U. left. right. clear -V. induction kids as [|t kids IHk]; [exact V|]. destruct V as [V|V]; [left; exact V|right; apply IHk, V]. }
    destruct kids as [|t0 kids'].
    + inversion HK; subst k. eexists. split.
      * cbn [flat_map tree_xml]. rewrite <- !app_assoc. rewrite (app_assoc (attrs al) (attrs pl)), <- attrs_app. rewrite !(app_assoc [60]), (app_assoc _ (attrs _)). rewrite <- (app_assoc [60]).
        eapply rd_empty; [apply fine_tag; [exact Q|exact Fa]|exact E|exact NN|exact R1].
      * intros t. rewrite not_escape by exact Ne. cbn [extract_events extract_event obind]. apply X1.
    + set (ks := t0 :: kids') in *.
      destruct (IHK pre (prefixed (pre i) n) (sax_namespaces (al ++ pl) ++ sc) ((m, sc) :: st) (txt "</" ++ prefixed (pre i) n ++ [62] ++ flat_map (tree_xml pre) ts ++ rest) (XEnd :: l1) UK) as (l2 & R2 & X2).
      { rewrite (fine_scope _ Fa). exact SRC0. }
      { apply rd_end, R1. }
      eexists. split.
      * assert (E0 : flat_map (tree_xml pre) (TreeElem i n al (attrs pl) ks :: ts) ++ rest =
          ([60] ++ prefixed (pre i) n ++ attrs (al ++ pl)) ++ [62] ++ flat_map (tree_xml pre) ks ++ txt "</" ++ prefixed (pre i) n ++ [62] ++ flat_map (tree_xml pre) ts ++ rest).
        { cbn [flat_map]. change (tree_xml pre (TreeElem i n al (attrs pl) ks)) with
            ([60] ++ prefixed (pre i) n ++ attrs al ++ attrs pl ++ [62] ++ flat_map (tree_xml pre) ks ++ txt "</" ++ prefixed (pre i) n ++ [62]).
          rewrite attrs_app, <- !app_assoc. reflexivity. }
        rewrite E0. eapply rd_start; [apply fine_tag; [exact Q|exact Fa]|exact E|exact NN|exact R2].
      * intros t. rewrite not_escape by exact Ne. rewrite X2. cbn [extract_events extract_event obind]. rewrite X1, app_assoc. reflexivity.
Qed.
