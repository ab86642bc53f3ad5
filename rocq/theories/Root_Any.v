(** Reading the root of any document (C43). *)
From Verif Require Import Base Text_Model Text_Spec Text_Proofs3 Api_Model Api_Spec Api_Proofs Writer_Model Writer_Spec Root_Model Root_Spec Root_AnySpec Root_Proofs4.
Local Open Scope N_scope.

Lemma last_cons : forall k n v l, last_value k ((n, v) :: l) = match last_value k l with Some w => Some w | None => if bytes_dec n k then Some v else None end.
Proof. reflexivity. Qed.
Lemma attribute_one : forall n v a al,
  let t := root_attribute (a, al) (n, v) in
  snd t = al ++ kept (n, v) /\
  a_revision (fst t) = (if bytes_dec n (txt "revision") then Some v else a_revision a) /\
  get_attr (fst t) AUrl = (if bytes_dec n (txt "url") then Some v else get_attr a AUrl) /\
  get_attr (fst t) AVersion = (if bytes_dec n (txt "version") then Some v else get_attr a AVersion) /\
  a_tabstop (fst t) = (if bytes_dec n (txt "tabs") then to_size (atoi v) else a_tabstop a) /\
  a_namespaces (fst t) = a_namespaces a /\
  get_attr (fst t) ALanguage = get_attr a ALanguage /\ a_pi (fst t) = a_pi a /\ a_macros (fst t) = a_macros a /\ a_extensions (fst t) = a_extensions a.
Proof.
  intros n v a al. cbv zeta. unfold root_attribute, kept. rewrite !beqb_dec. cbn [fst snd].
  destruct (in_dec bytes_dec n known) as [F|F].
  - unfold known in F. cbn [In] in F. rewrite app_nil_r.
    repeat (destruct F as [<-|F]; [repeat split; reflexivity|]). destruct F.
  - assert (Q : forall x, In x known -> n <> x) by (intros x Hx ->; exact (F Hx)). 
    repeat match goal with |- context [bytes_dec n ?x] => destruct (bytes_dec n x) as [->|]; [exfalso; apply F; unfold known; cbn [In]; tauto|] end.
    repeat split; reflexivity.
Qed.
Lemma attribute_names : forall ats a al,
  let t := fold_left root_attribute ats (a, al) in
  snd t = al ++ flat_map kept ats /\
  a_revision (fst t) = or_else (last_value (txt "revision") ats) (a_revision a) /\
  get_attr (fst t) AUrl = or_else (last_value (txt "url") ats) (get_attr a AUrl) /\
  get_attr (fst t) AVersion = or_else (last_value (txt "version") ats) (get_attr a AVersion) /\
  a_tabstop (fst t) = match last_value (txt "tabs") ats with Some v => to_size (atoi v) | None => a_tabstop a end /\
  a_namespaces (fst t) = a_namespaces a /\
  get_attr (fst t) ALanguage = get_attr a ALanguage /\ a_pi (fst t) = a_pi a /\ a_macros (fst t) = a_macros a /\ a_extensions (fst t) = a_extensions a.
Proof.
  induction ats as [|(n, v) ats IH]; intros a al; cbv zeta.
  - cbn [fold_left flat_map fst snd last_value]. rewrite app_nil_r. repeat split; reflexivity.
  - cbn [fold_left]. pose proof (attribute_one n v a al) as O. cbv zeta in O. destruct (root_attribute (a, al) (n, v)) as (a1, al1). specialize (IH a1 al1). cbv zeta in IH.
    cbn [fst snd] in O. destruct O as (O1 & O2 & O3 & O4 & O5 & O6 & O7 & O8 & O9 & O10).
    destruct IH as (H1 & H2 & H3 & H4 & H5 & H6 & H7 & H8 & H9 & H10).
    rewrite !last_cons. cbn [flat_map].
    split; [rewrite H1, O1, app_assoc; reflexivity|].
    split; [rewrite H2, O2; destruct (last_value (txt "revision") ats); [reflexivity|destruct (bytes_dec n (txt "revision")); reflexivity]|].
    split; [rewrite H3, O3; destruct (last_value (txt "url") ats); [reflexivity|destruct (bytes_dec n (txt "url")); reflexivity]|].
    split; [rewrite H4, O4; destruct (last_value (txt "version") ats); [reflexivity|destruct (bytes_dec n (txt "version")); reflexivity]|].
    split; [rewrite H5, O5; destruct (last_value (txt "tabs") ats); [reflexivity|destruct (bytes_dec n (txt "tabs")); reflexivity]|].
    repeat split; congruence.
Qed.
Lemma namespaces_any : forall nss a,
  let a' := fold_left root_namespace nss a in
  rest_of a' = rest_of a /\
  forall u, prefix_from_uri a' u = or_else (last_value u (map (fun n => (uri_normalize (snd n), match fst n with Some p => p | None => [] end)) nss)) (prefix_from_uri a u).
Proof.
  induction nss as [|(p, u0) nss IH]; intros a; cbv zeta; [split; [reflexivity|intros u; reflexivity]|]. cbn [fold_left map fst snd].
  destruct (IH (root_namespace a (p, u0))) as (A & B). split; [rewrite A; reflexivity|]. intros u. rewrite B, last_cons.
  unfold root_namespace. cbn [fst snd step]. rewrite register_prefix.
  destruct (last_value u _); [reflexivity|]. destruct (bytes_dec (uri_normalize u0) u); reflexivity.
Qed.
Lemma any_root_ok : forall b nss ats a al, any_root ats nss a al (start_root b nss ats (a, al)).
Proof.
  intros b nss ats a al. unfold start_root. cbn [fst snd]. set (a0 := if b then a else _).
  pose proof (attribute_names ats a0 al) as H. cbv zeta in H. set (t := fold_left root_attribute ats (a0, al)) in *. 
  destruct H as (H1 & H2 & H3 & H4 & H5 & H6 & H7 & H8 & H9 & H10).
  pose proof (namespaces_any nss (fst t)) as (R & P). set (a' := fold_left root_namespace nss (fst t)) in *.
  assert (A0 : rest_of a0 = rest_of a /\ a_namespaces a0 = a_namespaces a) by (unfold a0; destruct b; split; reflexivity).
  destruct A0 as (A0 & N0). unfold rest_of in *. injection R as R1 R2 R3 R4 R5 R6 R7 R8 R9 R10 R11. injection A0 as Q1 Q2 Q3 Q4 Q5 Q6 Q7 Q8 Q9 Q10 Q11.
  unfold any_root. cbn [fst snd get_attr] in *. split; [exact H1|]. split; [congruence|]. split; [congruence|]. split; [congruence|].
  split; [rewrite R7, H5, Q7; reflexivity|]. split; [|repeat split; congruence].
  intros u. rewrite P. unfold prefix_from_uri. rewrite H6, N0. reflexivity.
Qed.
