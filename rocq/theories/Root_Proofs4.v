From Verif Require Import Base Text_Model Text_Spec Text_Proofs3 Api_Model Api_Spec Api_Proofs Api_Proofs3 Writer_Model Writer_Spec Writer_Proofs2 Writer_Proofs8 Archive_Model Archive_Spec Pretty_Spec Pretty_Proofs2 Root_Model Root_Spec Root_Proofs Root_Proofs2 Root_Proofs3.
Local Open Scope N_scope.

(** ** one call after the other *)
Lemma register_prefix : forall a p u v, prefix_from_uri (snd (register_namespace a (Some p) (Some u))) v =
  if bytes_dec u v then Some p else prefix_from_uri a v.
Proof.
  intros a p u v. unfold prefix_from_uri, register_namespace. cbn [snd a_namespaces with_options with_namespaces].
  destruct (find_uri (a_namespaces a) u) as [m|] eqn:E.
  - rewrite find_modify by reflexivity. destruct (bytes_dec u v) as [<-|]; [rewrite E|]; reflexivity.
  - rewrite find_snoc. cbn [ns_uri]. destruct (bytes_dec u v) as [<-|]; [rewrite E; reflexivity|]. destruct (find_uri (a_namespaces a) v); reflexivity.
Qed.
Lemma root_namespace_is : forall a n, uri_normalize (ns_uri n) = ns_uri n ->
  root_namespace a (sax_ns n) = snd (register_namespace a (Some (ns_prefix n)) (Some (ns_uri n))).
Proof. intros a n U. unfold root_namespace, sax_ns. cbn [fst snd step]. rewrite U. destruct (ns_prefix n); reflexivity. Qed.
(** everything but namespaces and options *)
Definition rest_of (a : archive) := (a_src_encoding a, a_encoding a, a_language a, a_url a, a_version a, a_revision a, a_tabstop a, a_pi a, a_extensions a, a_macros a, a_revision_number a).
Lemma namespaces_fold : forall D a, NoDup (map ns_uri D) -> Forall (fun n => uri_normalize (ns_uri n) = ns_uri n) D ->
  let a' := fold_left root_namespace (map sax_ns D) a in
  rest_of a' = rest_of a /\
  (forall v, prefix_from_uri a' v = match find_uri D v with Some n => Some (ns_prefix n) | None => prefix_from_uri a v end) /\
  (forall i, N.testbit (a_options a') i = N.testbit (a_options a) i ||
     match i with
     | 3 | 13 => match find_uri D CPP_URI with Some _ => true | None => false end
     | 2 => match find_uri D POSITION_URI with Some _ => true | None => false end
     | 11 => match find_uri D ERROR_URI with Some _ => true | None => false end
     | _ => false
     end).
Proof.
  induction D as [|n D IH]; intros a ND F; cbv zeta.
  - split; [reflexivity|]. split; [reflexivity|]. intros i. cbn [map fold_left find_uri].
    replace (match i with 3 | 13 => false | 2 => false | 11 => false | _ => false end) with false; [symmetry; apply orb_false_r|].
    destruct i as [|[[[[]|[]|]|[[]|[]|]|]|[[[]|[]|]|[[]|[]|]|]|]]; reflexivity.
  - cbn [map fold_left]. cbn [map] in ND. inversion ND as [|x y NI ND']; subst. rewrite (root_namespace_is a n (Forall_inv F)).
    destruct (IH (snd (register_namespace a (Some (ns_prefix n)) (Some (ns_uri n)))) ND' (Forall_inv_tail F)) as (A & B & C). cbv zeta in A, B, C.
    set (a' := fold_left root_namespace (map sax_ns D) _) in *. clearbody a'.
    split; [rewrite A; reflexivity|]. split.
    + intros v. rewrite B, register_prefix. cbn [find_uri]. rewrite beqb_dec. destruct (bytes_dec (ns_uri n) v) as [<-|Q]; [|reflexivity].
      rewrite (proj2 (find_uri_none D (ns_uri n)) NI). reflexivity.
    + intros i. rewrite C. unfold register_namespace. cbn [snd a_options with_options with_namespaces]. cbn [find_uri].
      assert (X : forall w, ns_uri n = w -> find_uri D w = None) by (intros w <-; apply find_uri_none, NI).
      rewrite !beqb_dec.
      destruct (bytes_dec (ns_uri n) CPP_URI) as [Q1|Q1]; [rewrite (X _ Q1)|];
      (destruct (bytes_dec (ns_uri n) ERROR_URI) as [Q2|Q2]; [try (exfalso; rewrite Q2 in Q1; vm_compute in Q1; discriminate Q1); rewrite (X _ Q2)|]);
      (destruct (bytes_dec (ns_uri n) POSITION_URI) as [Q3|Q3];
         [try (exfalso; rewrite Q3 in Q1; vm_compute in Q1; discriminate Q1); try (exfalso; rewrite Q3 in Q2; vm_compute in Q2; discriminate Q2); rewrite (X _ Q3)|]);
      rewrite ?N.lor_spec; unfold OPT_CPP, OPT_CPP_DECLARED, OPT_DEBUG, OPT_POSITION; rewrite ?pow2_bit;
      rewrite <- ?orb_assoc; f_equal;
      destruct i as [|[[[[]|[]|]|[[]|[]|]|]|[[[]|[]|]|[[]|[]|]|]|]]; cbn; try reflexivity;
      repeat match goal with |- context [match find_uri ?l ?w with _ => _ end] => destruct (find_uri l w) end; reflexivity.
Qed.
