(** A unit element, on its own or inside a document, is read back. *)
From Verif Require Import Base Text_Model Text_Spec Text_Proofs Text_Proofs3 Api_Model Api_Spec Writer_Model Writer_Spec Archive_Model Archive_Spec Root_Model Root_Spec Root_Proofs Source_Model Source_Spec Source_Proofs Root_Proofs5 Root_Proofs3 Source_Proofs2 Source_Proofs3 Source_Proofs4 Writer_Proofs2 Whole_Spec Whole_Tags Whole_Reads.
Local Open Scope N_scope.

Lemma unit_told : forall o g pre ts s sc, fine_out o -> fine_args g -> shows ts s ->
  (forall i, any_uses i ts -> prefix_name (pre i)) -> pre 0%nat = prefix_at SRC (so_ns o) -> prefix_name (pre 0%nat) ->
  let L := tag_attrs o g in
  lookup_ns (prefix_opt (pre 0%nat)) (sax_namespaces L ++ sc) = Some SRC_URI ->
  let d := unit_xml (start_tag o g) (prefixed (prefix_at SRC (so_ns o)) (txt "unit")) (nonempty (flat_map (tree_xml pre) ts)) in
  exists b, told (uri_in pre (sax_namespaces L ++ sc)) ts b /\ (forall t l, extract_events t (b ++ l) = extract_events (t ++ s) l) /\
    (forall m st rest l, reads ((m, sc) :: st) rest l -> reads ((m, sc) :: st) (d ++ rest) (XStart (txt "unit") (Some SRC_URI) (sax_attributes L) :: b ++ XEnd :: l)) /\
    (sc = [] -> xml_document d (XStart (txt "unit") (Some SRC_URI) (sax_attributes L) :: b ++ [XEnd])).
Proof.
  intros o g pre ts s sc FO FG SH PN P0 PZ L LK d. destruct (tag_ok o g FO FG) as (TF & TD). fold L in TF, TD.
  destruct (prefixed_ns (pre 0%nat) (txt "unit") PZ) as (Q & E & NN); [name_ok|split; discriminate|].
  assert (T : xml_tag (start_tag o g) (prefixed (pre 0%nat) (txt "unit")) L).
  { exists (attrs L). split; [unfold start_tag; rewrite <- P0; reflexivity|]. split; [exact Q|]. apply attrs_read; assumption. }
  destruct (forest_told ts s SH pre (sax_namespaces L ++ sc) PN LK) as (b & TB & X & R).
  exists b. split; [exact TB|]. split; [exact X|]. unfold d. rewrite <- P0. set (n := prefixed (pre 0%nat) (txt "unit")) in *.
  assert (EV : start_event (txt "unit") (prefix_opt (pre 0%nat)) L sc = XStart (txt "unit") (Some SRC_URI) (sax_attributes L)) by (unfold start_event; rewrite LK; reflexivity).
  assert (B0 : flat_map (tree_xml pre) ts = [] -> b = []).
  { intros Z. pose proof (R n [] (txt "</" ++ n ++ [62] ++ []) [XEnd] (rd_end n (sax_namespaces L ++ sc) _ _ _ rd_done)) as R1. rewrite Z in R1. cbn [app] in R1.
    assert (R2 : reads [(n, sax_namespaces L ++ sc)] (txt "</" ++ n ++ [62] ++ []) [XEnd]) by (apply rd_end, rd_done).
    assert (NB : Forall (fun e : bytes * scope => Forall name_byte (fst e)) [(n, sax_namespaces L ++ sc)]) by (constructor; [apply Q|constructor]).
    pose proof (reads_det _ _ _ R2 NB _ R1) as Y. destruct b as [|e b]; [reflexivity|]. exfalso. apply (f_equal (@length _)) in Y. cbn in Y. rewrite app_length in Y. cbn in Y. lia. }
  split.
  - intros m st rest l R0. destruct (flat_map (tree_xml pre) ts) as [|c cs] eqn:C.
    + rewrite (B0 eq_refl). cbn [nonempty unit_xml app]. rewrite <- app_assoc, <- EV.
      exact (rd_empty m sc st _ _ _ _ _ _ _ T E NN R0).
    + cbn [nonempty unit_xml]. rewrite <- EV. rewrite <- !app_assoc.
      apply (rd_start m sc st _ _ _ _ _ _ _ T E NN). apply R. apply (rd_end n _ _ _ _ R0).
  - intros ->. rewrite <- EV. exists (start_tag o g), n, (prefix_opt (pre 0%nat)), (txt "unit"), L. repeat (split; [assumption|]).
    destruct (flat_map (tree_xml pre) ts) as [|c cs] eqn:C.
    + right. rewrite (B0 eq_refl). split; reflexivity.
    + left. eexists _, _. split; [cbn [nonempty unit_xml]; reflexivity|]. split; [|reflexivity]. rewrite app_nil_r in R.
      apply R. change (txt ">") with ([62] ++ []). apply (rd_end n _ _ _ _ rd_done).
Qed.
(** ** Declarations in scope *)
Lemma same_prefix_true : forall p q, same_prefix p q = true <-> p = q.
Proof. intros [p|] [q|]; cbn; try (split; congruence). destruct (bytes_dec p q); split; congruence. Qed.
Lemma lookup_in : forall p u sc, In (p, u) sc -> (forall v, In (p, v) sc -> v = u) -> lookup_ns p sc = Some u.
Proof.
  intros p u sc. induction sc as [|(q, v) sc IH]; intros I H; [contradiction|]. cbn [lookup_ns]. destruct (same_prefix q p) eqn:E.
  - apply same_prefix_true in E. subst q. f_equal. apply H. left. reflexivity.
  - destruct I as [I|I]; [|apply IH; [exact I|intros w W; apply H; right; exact W]].
    injection I as -> ->. rewrite (proj2 (same_prefix_true p p) eq_refl) in E. discriminate E.
Qed.
Lemma sax_namespaces_app : forall l m, sax_namespaces (l ++ m) = sax_namespaces l ++ sax_namespaces m.
Proof. induction l as [|(n, v) l IH]; intros m; [reflexivity|]. cbn [sax_namespaces app]. rewrite IH. destruct (declares n); reflexivity. Qed.
Lemma sax_in : forall l p u, In (p, u) (sax_namespaces l) <-> exists n, In (n, u) l /\ declares n = Some p.
Proof.
  induction l as [|(n, v) l IH]; intros p u; [split; [intros []|intros (n & [] & _)]|]. cbn [sax_namespaces]. split.
  - destruct (declares n) as [q|] eqn:E.
    + intros [I|I]; [injection I as -> ->; exists n; split; [left; reflexivity|exact E]|]. apply IH in I as (m & I & D). exists m. split; [right; exact I|exact D].
    + intros I. apply IH in I as (m & I & D). exists m. split; [right; exact I|exact D].
  - intros (m & [I|I] & D).
    + injection I as -> ->. rewrite D. left. reflexivity.
    + assert (J : In (p, u) (sax_namespaces l)) by (apply IH; exists m; split; assumption). destruct (declares n); [right|]; exact J.
Qed.
Lemma declares_declaration : forall p u, declares (fst (declaration p u)) = Some (prefix_opt p).
Proof. intros [|c p] u; [reflexivity|]. unfold declaration, prefix_opt. cbn [fst]. apply declares_prefix. discriminate. Qed.
Lemma declared_scope : forall l p u, In (declaration p u) l -> In (prefix_opt p, u) (sax_namespaces l).
Proof. intros l p u I. apply sax_in. exists (fst (declaration p u)). split; [|apply declares_declaration]. unfold declaration in *. exact I. Qed.
Lemma scope_names : forall o g p u, fine_out o -> fine_args g -> In (p, u) (sax_namespaces (tag_attrs o g)) ->
  exists n, In n (so_ns o) /\ p = prefix_opt (ns_prefix n) /\ u = ns_uri n.
Proof.
  intros o g p u FO FG I. apply sax_in in I as (m & I & D). unfold tag_attrs in I. apply in_app_or in I as [I|I].
  - destruct (opt (so_options o) B_NAMESPACE_DECL); [|contradiction]. apply in_map_iff in I as (n & E & I). apply filter_In in I as (I & _).
    assert (SN : same_names (ns_now o) (so_ns o)).
    { unfold ns_now, mark_options. repeat (eapply names_trans; [apply use_names|]). apply mark_names. }
    assert (J : In (ns_prefix n, ns_uri n) (map (fun n => (ns_prefix n, ns_uri n)) (so_ns o))) by (rewrite <- SN; apply in_map_iff; exists n; split; [reflexivity|exact I]).
    apply in_map_iff in J as (k & J1 & J2). injection J1 as J1 J3. exists k. split; [exact J2|]. rewrite J1, J3. unfold ns_attr in E. injection E as E1 E2. split; [|congruence].
    destruct (ns_prefix n) as [|c q] eqn:P; [subst m; cbn in D; injection D as <-; reflexivity|]. subst m.
    pose proof (declares_declaration (c :: q) []) as DD. unfold declaration in DD. cbn [fst] in DD. change (declares (txt "xmlns:" ++ c :: q) = Some p) in D. rewrite DD in D. injection D as <-. reflexivity.
  - unfold named in I. apply filter_In in I as (I & _). destruct (rest_ok o g FO FG) as (RF & _). rewrite Forall_forall in RF. destruct (RF _ I) as (_ & _ & ND). cbn [fst] in ND. congruence.
Qed.
Lemma prefix_opt_inj : forall p q, prefix_opt p = prefix_opt q -> p = q.
Proof. intros [|c p] [|d q] H; cbn in H; congruence. Qed.
Lemma names_in : forall l l' n, same_names l l' -> In n l -> exists k, In k l' /\ ns_prefix k = ns_prefix n /\ ns_uri k = ns_uri n.
Proof.
  intros l l' n S I. assert (J : In (ns_prefix n, ns_uri n) (map (fun n => (ns_prefix n, ns_uri n)) l')) by (rewrite <- S; apply in_map_iff; exists n; auto).
  apply in_map_iff in J as (k & J1 & J2). injection J1 as J1 J3. exists k. auto.
Qed.
Lemma one_uri : forall l, NoDup (map ns_prefix l) -> forall n k, In n l -> In k l -> ns_prefix n = ns_prefix k -> ns_uri n = ns_uri k.
Proof.
  induction l as [|x l IH]; intros D n k I J E; [contradiction|]. cbn [map] in D. inversion D as [|y r NI D']; subst.
  destruct I as [->|I], J as [->|J]; try reflexivity.
  - exfalso. apply NI. rewrite E. apply in_map, J.
  - exfalso. apply NI. rewrite <- E. apply in_map, I.
  - exact (IH D' n k I J E).
Qed.
Lemma lookup_one : forall o g o' g' p u, fine_out o -> fine_args g -> fine_out o' -> fine_args g' -> same_names (so_ns o) (so_ns o') ->
  In (declaration p u) (tag_attrs o g) \/ In (declaration p u) (tag_attrs o' g') ->
  lookup_ns (prefix_opt p) (sax_namespaces (tag_attrs o g) ++ sax_namespaces (tag_attrs o' g')) = Some u.
Proof.
  intros o g o' g' p u FO FG FO' FG' SN H.
  assert (ALL : forall v, In (prefix_opt p, v) (sax_namespaces (tag_attrs o g) ++ sax_namespaces (tag_attrs o' g')) -> exists k, In k (so_ns o') /\ ns_prefix k = p /\ ns_uri k = v).
  { intros v I. apply in_app_or in I as [I|I].
    - destruct (scope_names o g _ _ FO FG I) as (n & N1 & N2 & N3). apply prefix_opt_inj in N2. destruct (names_in _ _ n SN N1) as (k & K1 & K2 & K3). exists k. repeat split; [exact K1|congruence|congruence].
    - destruct (scope_names o' g' _ _ FO' FG' I) as (n & N1 & N2 & N3). apply prefix_opt_inj in N2. exists n. repeat split; [exact N1|congruence|congruence]. }
  assert (I : In (prefix_opt p, u) (sax_namespaces (tag_attrs o g) ++ sax_namespaces (tag_attrs o' g'))).
  { apply in_or_app. destruct H as [H|H]; [left|right]; apply declared_scope; exact H. }
  apply lookup_in; [exact I|]. intros v J. destruct (ALL _ I) as (k & K1 & K2 & K3), (ALL _ J) as (k' & K1' & K2' & K3').
  rewrite <- K3, <- K3'. apply (one_uri (so_ns o')); [apply FO'|exact K1'|exact K1|congruence].
Qed.
Lemma lookup_alone : forall o g p u, fine_out o -> fine_args g -> In (declaration p u) (tag_attrs o g) ->
  lookup_ns (prefix_opt p) (sax_namespaces (tag_attrs o g)) = Some u.
Proof.
  intros o g p u FO FG H. apply lookup_in; [apply declared_scope; exact H|]. intros v J. pose proof (declared_scope _ _ _ H) as I.
  destruct (scope_names o g _ _ FO FG I) as (n & N1 & N2 & N3), (scope_names o g _ _ FO FG J) as (k & K1 & K2 & K3). apply prefix_opt_inj in N2, K2.
  rewrite N3, K3. apply (one_uri (so_ns o)); [apply FO|exact K1|exact N1|congruence].
Qed.
