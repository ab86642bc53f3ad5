(** A written unit as the reader gets it (C59). *)
From Verif Require Import Base Text_Model Text_Spec Text_Proofs Text_Proofs3 Api_Model Api_Spec Api_Proofs Api_Proofs3 Writer_Model Writer_Spec Archive_Model Archive_Spec Root_Model Root_Spec Root_Proofs Root_Proofs5 Source_Model Source_Spec Source_Proofs Source_Proofs2 Whole_Spec Whole_Tags Whole_Reads Whole_Unit Handoff_Model Handoff_Spec Sax_Model Sax_Spec Back_Spec Back_Reads Back_Invert.
Local Open Scope N_scope.

(** the text told by XML events, as the reader takes it *)
Definition told_piece (e : xml_event) : bytes :=
  match e with
  | XChars t => t
  | Source_Model.XStart n _ ats => if beqb n (txt "escape") then match ats with (_, v) :: _ => [read_escape v] | [] => [] end else []
  | Source_Model.XEnd => []
  end.
Definition escapes_fine (e : xml_event) : Prop := match e with Source_Model.XStart n _ ats => n = txt "escape" -> ats <> [] | _ => True end.
Lemma told_app : forall a b, concat (map told_piece (a ++ b)) = concat (map told_piece a) ++ concat (map told_piece b).
Proof. intros a b. rewrite map_app, concat_app. reflexivity. Qed.
Lemma told_chars : forall s : bytes, concat (map told_piece (map (fun c => XChars [c]) s)) = s.
Proof. induction s as [|c s IH]; [reflexivity|]. cbn [map concat told_piece app]. rewrite IH. reflexivity. Qed.
Lemma same_text : forall c b, same c b -> content_text c = concat (map told_piece b).
Proof.
  induction 1 as [|plain raw text es l H IH|t u es l H IH|n raw es l H IH]; [reflexivity|..]; unfold content_text in *; cbn [map concat text_piece told_piece].
  - rewrite told_app, told_chars, IH. reflexivity.
  - rewrite IH. destruct (beqb (t_name t) (txt "escape")); [|reflexivity]. destruct (t_attrs t) as [|[x v] l']; reflexivity.
  - exact IH.
Qed.
Lemma told_text : forall ts s, Source_Spec.shows ts s -> forall uri b, told uri ts b -> concat (map told_piece b) = s /\ Forall escapes_fine b.
Proof.
  induction 1 as [|x ts r F H IH|c ts r L H IH|i n al ts r Nn En Ne Fa H IH|i n al pl kids k ts r Nn En Ne Fa HK IHK H IH]; intros uri b T.
  - inversion T. split; [reflexivity|constructor].
  - inversion T; subst. destruct (IH _ _ H3) as (E & G). split; [rewrite told_app, told_chars, E; reflexivity|]. apply Forall_app. split; [|exact G]. apply Forall_forall. intros e I. apply in_map_iff in I as (c & <- & _). exact Logic.I.
  - inversion T; subst. match goal with Q : told uri ts ?l |- _ => destruct (IH _ _ Q) as (E & G) end.
    change (sax_attributes [(txt "char", control_value c)]) with [(txt "char", control_value c)]. split.
    + cbn [map concat told_piece app]. change (beqb (txt "escape") (txt "escape")) with true. cbv iota. rewrite (control_read c L), E. reflexivity.
    + constructor; [intros _; discriminate|]. constructor; [exact Logic.I|exact G].
  - inversion T; subst; try contradiction. match goal with Q : told uri ts ?l |- _ => destruct (IH _ _ Q) as (E & G) end. split.
    + cbn [map concat told_piece app]. assert (NB : beqb n (txt "escape") = false) by (unfold beqb; destruct (list_eq_dec _ _ _); [contradiction|reflexivity]). rewrite NB. exact E.
    + constructor; [intros Q; contradiction|]. constructor; [exact Logic.I|exact G].
  - inversion T; subst. match goal with Q : told uri ts ?l |- _ => destruct (IH _ _ Q) as (E & G) end. match goal with Q : told uri kids ?l |- _ => destruct (IHK _ _ Q) as (EK & GK) end. split.
    + cbn [map concat told_piece app]. assert (NB : beqb n (txt "escape") = false) by (unfold beqb; destruct (list_eq_dec _ _ _); [contradiction|reflexivity]). rewrite NB, told_app, EK.
      cbn [map concat told_piece app]. rewrite E. reflexivity.
    + constructor; [intros Q; contradiction|]. apply Forall_app. split; [exact GK|]. constructor; [exact Logic.I|exact G].
Qed.
Lemma same_content : forall c b, same c b -> Forall escapes_fine b -> Forall sane c -> forall f, content_ok f c.
Proof.
  induction 1 as [|plain raw text es l H IH|t u es l H IH|n raw es l H IH]; intros E S f; [exact Logic.I|..]; pose proof (Forall_inv S) as S1; apply Forall_inv_tail in S; cbn [content_ok event_ok].
  - split; [exact S1|]. apply IH; [exact (proj2 (proj1 (Forall_app _ _ _) E))|exact S].
  - split; [split; [exact S1|exact (Forall_inv E)]|]. apply IH; [exact (Forall_inv_tail E)|exact S].
  - split; [exact Logic.I|]. apply IH; [exact (Forall_inv_tail E)|exact S].
Qed.
Lemma tag_qname : forall g q l, is_tag g q l -> Sax_Spec.qname g = q.
Proof. intros g q l (_ & _ & (_ & N) & _). unfold Sax_Spec.qname. destruct (t_prefix g) as [p|]; [destruct N as (_ & ->); rewrite <- app_assoc; reflexivity|symmetry; exact N]. Qed.
Lemma tag_split : forall g q L, is_tag g q L -> L <> [] -> t_raw g = tag_head g ++ tag_tail g.
Proof.
  intros g q L IT NE. unfold tag_tail. rewrite <- (firstn_skipn (length (tag_head g)) (t_raw g)) at 1. f_equal.
  pose proof (tag_qname _ _ _ IT) as Q. destruct IT as ((x & E & _ & X) & _). unfold tag_head. rewrite Q, E. destruct X as [|n e v s l A B C D]; [contradiction|].
  change ([60] ++ q ++ [32] ++ n ++ txt "=""" ++ e ++ [34] ++ s) with (60 :: (q ++ 32 :: (n ++ txt "=""" ++ e ++ [34] ++ s))).
  cbn [length]. rewrite app_length. cbn [length firstn]. f_equal. rewrite firstn_app. rewrite firstn_all2 by lia. f_equal. replace (length q + 1 - length q)%nat with 1%nat by lia. reflexivity.
Qed.
Lemma cpp_prefixed_tag : forall o g t q, fine_out o -> fine_args g -> Forall (fun n => ns_uri n = CPP_URI -> ns_prefix n <> []) (so_ns o) -> is_tag t q (tag_attrs o g) -> cpp_prefixed t.
Proof.
  intros o g t q FO FG FN (_ & _ & _ & NS & _). unfold cpp_prefixed. rewrite NS. apply Forall_forall. intros (p, u) I E. cbn [fst snd] in *.
  destruct (scope_names o g p u FO FG I) as (n & J & -> & ->). rewrite Forall_forall in FN. specialize (FN n J E). destruct (ns_prefix n); [contradiction|discriminate].
Qed.
(** a unit element *)
Lemma unit_reported : forall o g pre ts s sc m st rest evs, fine_out o -> fine_args g -> Source_Spec.shows ts s ->
  (forall i, any_uses i ts -> prefix_name (pre i)) -> pre 0%nat = prefix_at SRC (so_ns o) -> prefix_name (pre 0%nat) ->
  let L := tag_attrs o g in lookup_ns (prefix_opt (pre 0%nat)) (sax_namespaces L ++ sc) = Some SRC_URI -> L <> [] ->
  Forall (fun n => ns_uri n = CPP_URI -> ns_prefix n <> []) (so_ns o) ->
  reports (m :: st) (unit_xml (start_tag o g) (prefixed (prefix_at SRC (so_ns o)) (txt "unit")) (nonempty (flat_map (tree_xml pre) ts)) ++ rest) evs ->
  exists u l, evs = element_events u ++ l /\ reports (m :: st) rest l /\ unit_ok u /\ t_attrs (e_tag u) = sax_attributes L /\ content_text (e_content u) = s /\ text_of (e_content u) = flat_map (tree_xml pre) ts /\
    exists uri b, told uri ts b /\ same (e_content u) b.
Proof.
  intros o g pre ts s sc m st rest evs FO FG SH PN P0 PZ L LK NE CN R. destruct (tag_ok o g FO FG) as (TF & TD). fold L in TF, TD.
  destruct (prefixed_ns (pre 0%nat) (txt "unit") PZ) as (Q & E & NN); [name_ok|split; discriminate|].
  assert (T : xml_tag (start_tag o g) (prefixed (pre 0%nat) (txt "unit")) L).
  { exists (attrs L). split; [unfold start_tag; rewrite <- P0; reflexivity|]. split; [exact Q|]. apply attrs_read; assumption. }
  destruct (forest_told ts s SH pre (sax_namespaces L ++ sc) PN LK) as (b & TB & _ & RB). rewrite <- P0 in R.
  destruct (element_reported m st _ _ L _ _ _ b (sax_namespaces L ++ sc) rest evs T NN (RB _ []) R) as (t & c & raw & l & IT & TR & TN & TP & EV & RR & TC & BC & SC & SM & EO).
  destruct (told_text ts s SH _ _ TB) as (TT & EF).
  exists (Element t c raw), l. split; [exact EV|]. split; [exact RR|]. split; [|split; [apply IT|split; [rewrite <- TT; apply same_text, SM|split; [exact TC|eexists _, _; split; [exact TB|exact SM]]]]].
  split; [|split; [exact BC|split; [exact (same_content _ _ SM EF SC false)|exact EO]]]. split; [exact TN|]. split; [exact (tag_split _ _ _ IT NE)|]. exact (cpp_prefixed_tag o g t _ FO FG CN IT).
Qed.
