(** The root as the only result (C51). *)
From Verif Require Import Base Text_Model Api_Model Transform_Model Transform_Calls.
Local Open Scope N_scope.

(** a document element with attributes and content; the attributes come first *)
Definition element_parts (t : tree) (i : nat) (l : label) (attributes content : list tree) : Prop :=
  t = Node i l (attributes ++ content) /\ n_kind l = Elem /\ Forall (fun a => n_kind (root_label a) = Attr) attributes /\
  Forall (fun c => n_kind (root_label c) <> Attr) content.
Lemma parts_split : forall as_ cs, Forall (fun a => n_kind (root_label a) = Attr) as_ -> Forall (fun c => n_kind (root_label c) <> Attr) cs ->
  attrs_of (as_ ++ cs) = as_ /\ inside (as_ ++ cs) = cs.
Proof.
  intros as_ cs A C. induction A as [|a as_ HA A [IH1 IH2]].
  - destruct C as [|c cs HC C]; [split; reflexivity|]. cbn [app attrs_of inside]. unfold is_kind. destruct (n_kind (root_label c)); try (split; reflexivity). now elim HC.
  - cbn [app attrs_of inside]. unfold is_kind. rewrite HA. rewrite IH1, IH2. split; reflexivity.
Qed.
(** the root keeps its place and its attributes, its content is in the new element, and the text is what it was *)
Lemma root_wrapped : forall g x new t i l attributes content, element_parts t i l attributes content ->
  xpath_eval g (x_xpath x) [t] = Some (XNodes (Some [i])) -> x_element x <> [] ->
  let e := Label Elem (x_element x) (x_element_ns x) [] in
  let extra := match x_attr_name x with [] => [] | n => [Node (S new) (Label Attr n (x_attr_ns x) (x_attr_value x)) []] end in
  let t' := Node i l (attributes ++ [Node new e (extra ++ content)]) in
  exists r, apply_xpath g x new [t] = Ok ([t'], r) /\ r_type r = RESULT_UNITS /\ r_nodes r = Some [i] /\ text_content t' = text_content t.
Proof.
  intros g x new t i l as_ cs (-> & K & A & C) X NE e extra t'. subst e extra t'. destruct (parts_split as_ cs A C) as [PA PC].
  assert (TA : flat_map text_content as_ = [] \/ True) by (right; exact I). clear TA.
  unfold apply_xpath. unfold is_kind at 1. cbn [root_label]. rewrite K, X.
  assert (E1 : empty (x_element x) = false) by (destruct (x_element x); [now elim NE|reflexivity]). rewrite E1. cbn [negb].
  assert (R : forall ch, root_set [Node i l ch] = [i]) by (intros ch; unfold root_set, root_element; cbn [find]; unfold is_kind; cbn [root_label]; rewrite K; reflexivity).
  rewrite R. cbn [existsb]. rewrite Nat.eqb_refl. cbn [orb flat_map change app]. rewrite Nat.eqb_refl.
  unfold wrap_root, wrapper. destruct (x_attr_name x) as [|n ns] eqn:EN.
  - cbn [empty]. rewrite PA, PC. cbn [app]. rewrite R. eexists. split; [reflexivity|]. split; [reflexivity|]. split; [reflexivity|].
    cbn [text_content]. rewrite !flat_map_app. cbn. rewrite app_nil_r. reflexivity.
  - cbn [empty]. unfold add_attribute. cbn [get_ns_prop find attrs_of inside app]. rewrite PA, PC. rewrite R. rewrite EN. cbn [app]. eexists. split; [reflexivity|]. split; [reflexivity|]. split; [reflexivity|].
    cbn [text_content]. rewrite !flat_map_app. cbn. rewrite app_nil_r. reflexivity.
Qed.
