(** The namespaces of a parsed unit when it is written into its archive. *)
From Verif Require Import Base Text_Model Text_Spec Text_Proofs3 Api_Model Api_Spec Api_Proofs Api_Proofs3 Writer_Model Writer_Spec Writer_Proofs2 Writer_Proofs3 Writer_Proofs4 Writer_Proofs7 Writer_Proofs8 Archive_Model Archive_Spec Archive_Declared Source_Proofs4.
Local Open Scope N_scope.

Lemma seen_app : forall x seen y, (forall z, In z y -> In z seen) -> first_seen seen (x ++ y) = first_seen seen x.
Proof.
  induction x as [|n x IH]; intros seen y H; cbn [app].
  - rewrite <- (app_nil_r y). rewrite seen_skip by exact H. reflexivity.
  - cbn [first_seen]. destruct (in_dec (list_eq_dec N.eq_dec) n seen); [apply IH, H|]. f_equal. apply IH. intros z Z. right. apply H, Z.
Qed.
Lemma merged_names : forall A l, NoDup (map ns_uri A) -> same_names l (merge default_namespaces A) ->
  same_names (merge default_namespaces (merge A l)) (merge default_namespaces A).
Proof.
  intros A l ND H. pose proof (uris_names _ _ H) as U. pose proof (merge_uris A default_namespaces) as U1.
  assert (NL : NoDup (map ns_uri l)) by (rewrite U; apply merge_nodup, default_nodup).
  assert (NAL : NoDup (map ns_uri (merge A l))) by (apply merge_nodup, ND).
  apply names_eq; [apply merge_nodup, default_nodup| |].
  - rewrite merge_uris, U1. f_equal. rewrite merge_uris. apply seen_app. intros z Z.
    apply (proj2 (first_seen_nodup _ _)) in Z as (Z & NZ). rewrite U, U1 in Z. apply in_app_or in Z as [Z|Z]; [exact Z|].
    apply (proj2 (first_seen_nodup _ _)) in Z as (Z & _). contradiction.
  - intros u. rewrite (merge_one default_namespaces (merge A l) u NAL), (merge_one A l u NL).
    pose proof (find_names _ _ u H) as F. rewrite (merge_one default_namespaces A u ND) in F |- *.
    destruct (find_uri l u) as [m|] eqn:L.
    + destruct (find_uri_some _ _ _ L) as (_ & Um). destruct (find_uri A u) as [n|] eqn:EA.
      * destruct (find_uri_some _ _ _ EA) as (_ & Un). unfold st in *. rewrite Um, Un in *.
        destruct (find_uri default_namespaces u) as [d|] eqn:D.
        -- rewrite beqb_refl in *. cbn [option_map ns_prefix] in *. injection F as F. destruct (beqb (ns_prefix n) (ns_prefix d)); cbn [ns_uri ns_prefix]; rewrite ?Un, ?D, ?beqb_refl; cbn [option_map ns_prefix]; congruence.
        -- cbn [option_map ns_prefix ns_uri] in *. exact F.
      * cbn [st]. unfold st. rewrite Um. destruct (find_uri default_namespaces u) as [d|] eqn:D; [|discriminate F].
        rewrite beqb_refl. cbn [option_map ns_prefix] in *. exact F.
    + destruct (find_uri A u) as [n|] eqn:EA; [|reflexivity].
      destruct (find_uri_some _ _ _ EA) as (_ & Un). unfold st in *. rewrite Un in *. destruct (find_uri default_namespaces u) as [d|]; [|discriminate F]. rewrite beqb_refl in F. discriminate F.
Qed.
