(** The units made of results (C52). *)
From Verif Require Import Base Text_Model Text_Spec Text_Proofs3 Api_Model Transform_Model Transform_Spec Transform_Trees Transform_Results.
Local Open Scope N_scope.

Lemma uses_ok uri t : uses_uri uri t = true <-> exists r p, inner r t /\ n_ns (root_label r) = Some (Some p, uri).
Proof.
  induction t as [i l ch IH] using tree_in. cbn [uses_uri]. rewrite orb_true_iff. split.
  - intros [H|H].
    + unfold uses_here in H. cbn [root_label] in H. destruct (n_ns l) as [[[p|] w]|] eqn:E; try discriminate H. apply beqb_true in H. subst w.
      exists (Node i l ch), p. split; [constructor|exact E].
    + apply existsb_exists in H. destruct H as (c & C & H). apply andb_prop in H as (K & H). apply negb_true_iff in K.
      apply (IH c C) in H. destruct H as (r & p & R & E). exists r, p. split; [|exact E]. exact (Below r c i l ch C K R).
  - intros (r & p & R & E). inversion R as [? |? c ? ? ? C K R']; subst.
    + left. unfold uses_here. cbn [root_label] in *. rewrite E. apply beqb_true. reflexivity.
    + right. apply existsb_exists. exists c. split; [exact C|]. rewrite K. cbn [negb andb]. apply (IH c C). exists r, p. auto.
Qed.
Lemma used_ok uri t : is_kind Elem t && uses_uri uri t = true <-> used uri t.
Proof. rewrite andb_true_iff, uses_ok. reflexivity. Qed.

Lemma lor_used f b : N.testbit (N.lor f NS_USED) b = (N.testbit f b || (b =? 2)).
Proof. rewrite N.lor_spec. f_equal. unfold NS_USED. change 4 with (2 ^ 2). rewrite N.pow2_bits_eqb. apply N.eqb_sym. Qed.
Lemma ldiff_used f b : N.testbit (N.ldiff f NS_USED) b = (N.testbit f b && negb (b =? 2)).
Proof. rewrite N.ldiff_spec. do 2 f_equal. unfold NS_USED. change 4 with (2 ^ 2). rewrite N.pow2_bits_eqb. apply N.eqb_sym. Qed.

(** one of the two namespaces *)
Definition flagged_one (uri : bytes) (used : bool) (n n' : ns) : Prop :=
  ns_prefix n' = ns_prefix n /\ ns_uri n' = ns_uri n /\ (forall b, b <> 2 -> N.testbit (ns_flags n') b = N.testbit (ns_flags n) b) /\
  (ns_uri n = uri -> N.testbit (ns_flags n') 2 = used) /\ (ns_uri n <> uri -> ns_flags n' = ns_flags n).
Lemma find_uri_in l uri : find_uri l uri <> None <-> In uri (map ns_uri l).
Proof.
  induction l as [|n l IH]; cbn; [split; [congruence|intros []]|]. destruct (beqb (ns_uri n) uri) eqn:E.
  - apply beqb_true in E. split; [auto|discriminate].
  - rewrite IH. split; [auto|]. intros [H|H]; [|exact H]. exfalso. rewrite H in E. rewrite (proj2 (beqb_true uri uri) eq_refl) in E. discriminate E.
Qed.
Lemma flagged_same uri b l : ~ In uri (map ns_uri l) -> Forall2 (flagged_one uri b) l l.
Proof.
  induction l as [|n l IH]; cbn; intros H; constructor; [|apply IH; auto]. repeat split; auto. intros E. destruct H. auto.
Qed.
Lemma use_one uri prefix elem usd l : NoDup (map ns_uri l) ->
  exists l', use_namespace uri prefix elem usd l = l' ++ (if elem && usd then if in_dec (list_eq_dec N.eq_dec) uri (map ns_uri l) then [] else [Ns prefix uri 20] else []) /\
    Forall2 (flagged_one uri (elem && usd)) l l'.
Proof.
  intros D. unfold use_namespace. destruct (find_uri l uri) as [m|] eqn:F.
  - assert (I : In uri (map ns_uri l)) by (apply find_uri_in; rewrite F; discriminate).
    destruct (in_dec (list_eq_dec N.eq_dec) uri (map ns_uri l)) as [_|N]; [|contradiction].
    exists (if elem && usd then modify_uri (modify_uri l uri (set_flag false NS_USED)) uri (set_flag true NS_USED) else modify_uri l uri (set_flag false NS_USED)).
    split; [destruct (elem && usd); rewrite app_nil_r; reflexivity|]. clear m F.
    induction l as [|n l IH]; [destruct I|]. cbn [map] in D. apply NoDup_cons_iff in D as (N & D). cbn [modify_uri]. destruct (beqb (ns_uri n) uri) eqn:E.
    + apply beqb_true in E. cbn [modify_uri set_flag ns_uri]. rewrite (proj2 (beqb_true _ _) E). destruct (elem && usd).
      * constructor; [|apply flagged_same; rewrite <- E; exact N]. unfold set_flag, flagged_one. cbn [ns_prefix ns_uri ns_flags].
        repeat split; [|rewrite lor_used, orb_true_r; reflexivity|intros X; contradiction].
        intros b B. rewrite lor_used, ldiff_used. apply N.eqb_neq in B. rewrite B, orb_false_r, andb_true_r. reflexivity.
      * constructor; [|apply flagged_same; rewrite <- E; exact N]. unfold set_flag, flagged_one. cbn [ns_prefix ns_uri ns_flags].
        repeat split; [|rewrite ldiff_used, andb_false_r; reflexivity|intros X; contradiction].
        intros b B. rewrite ldiff_used. apply N.eqb_neq in B. rewrite B, andb_true_r. reflexivity.
    + assert (NE : ns_uri n <> uri) by (intros X; apply beqb_true in X; congruence). destruct I as [I|I]; [contradiction|]. specialize (IH D I). cbn [modify_uri]. rewrite E.
      destruct (elem && usd); (constructor; [|exact IH]); repeat split; auto; contradiction.
  - assert (I : ~ In uri (map ns_uri l)) by (intros I; apply find_uri_in in I; contradiction). exists l.
    destruct (in_dec (list_eq_dec N.eq_dec) uri (map ns_uri l)) as [X|_]; [contradiction|]. split; [destruct (elem && usd); [reflexivity|rewrite app_nil_r; reflexivity]|apply flagged_same; exact I].
Qed.
Lemma flagged_uris (R : ns -> ns -> Prop) l l' : (forall n n' : ns, R n n' -> ns_uri n' = ns_uri n) -> Forall2 R l l' -> map ns_uri l' = map ns_uri l.
Proof. intros H F. induction F as [|n n' l l' A F IH]; cbn; [reflexivity|]. rewrite IH, (H _ _ A). reflexivity. Qed.
Lemma forall2_comp {A} (P Q R : A -> A -> Prop) a b c : (forall x y z, P x y -> Q y z -> R x z) -> Forall2 P a b -> Forall2 Q b c -> Forall2 R a c.
Proof. intros H F. revert c. induction F as [|x y a b X F IH]; intros c G; inversion G; subst; constructor; [eapply H; eauto|apply IH; assumption]. Qed.
Lemma namespaces_ok t l l' : NoDup (map ns_uri l) ->
  use_namespace OPENMP_URI (txt "omp") (is_kind Elem t) (uses_uri OPENMP_URI t) (use_namespace CPP_URI (txt "cpp") (is_kind Elem t) (uses_uri CPP_URI t) l) = l' ->
  exists l1 more, l' = l1 ++ more /\ Forall2 (flagged t) l l1 /\
    forall n, In n more <-> (n = Ns (txt "cpp") CPP_URI 20 /\ used CPP_URI t /\ ~ In CPP_URI (map ns_uri l) \/
                             n = Ns (txt "omp") OPENMP_URI 20 /\ used OPENMP_URI t /\ ~ In OPENMP_URI (map ns_uri l)).
Proof.
  intros D E. assert (NEQ : CPP_URI <> OPENMP_URI) by (intros H; vm_compute in H; discriminate H).
  set (c := is_kind Elem t && uses_uri CPP_URI t) in *. set (o := is_kind Elem t && uses_uri OPENMP_URI t) in *.
  assert (Hc : c = true <-> used CPP_URI t) by apply used_ok. assert (Ho : o = true <-> used OPENMP_URI t) by apply used_ok.
  destruct (use_one CPP_URI (txt "cpp") (is_kind Elem t) (uses_uri CPP_URI t) l D) as (l1 & E1 & F1). fold c in E1, F1.
  set (m1 := if c then if in_dec (list_eq_dec N.eq_dec) CPP_URI (map ns_uri l) then [] else [Ns (txt "cpp") CPP_URI 20] else []) in *.
  assert (U1 : map ns_uri l1 = map ns_uri l) by (apply (flagged_uris (flagged_one CPP_URI c)); [intros n n' H; apply H|exact F1]).
  assert (D1 : NoDup (map ns_uri (l1 ++ m1))).
  { rewrite map_app, U1. unfold m1. destruct c; [|rewrite app_nil_r; exact D]. destruct (in_dec (list_eq_dec N.eq_dec) CPP_URI (map ns_uri l)) as [_|N]; [rewrite app_nil_r; exact D|].
    apply NoDup_app_iff. repeat split; [exact D|repeat constructor; intros []|]. intros x X [Y|[]]. subst x. contradiction. }
  rewrite E1 in E. destruct (use_one OPENMP_URI (txt "omp") (is_kind Elem t) (uses_uri OPENMP_URI t) _ D1) as (l2 & E2 & F2). fold o in E2, F2.
  rewrite E2 in E. apply Forall2_app_inv_l in F2. destruct F2 as (l3 & m3 & F3 & F4 & El2). subst l2.
  assert (M3 : m3 = m1).
  { unfold m1 in F4. destruct c; [|inversion F4; reflexivity]. destruct (in_dec (list_eq_dec N.eq_dec) CPP_URI (map ns_uri l)); [inversion F4; reflexivity|].
    inversion F4 as [|? n' ? r (A & B & _ & _ & G) H]; subst. inversion H; subst. cbn [ns_prefix ns_uri ns_flags] in *. specialize (G NEQ).
    destruct n' as [p w f]. cbn in *. subst. reflexivity. }
  subst m3. exists l3. eexists. split; [rewrite <- E, <- app_assoc; reflexivity|]. split.
  - apply (forall2_comp (flagged_one CPP_URI c) (flagged_one OPENMP_URI o) _ l l1 l3); [|exact F1|exact F3].
    intros x y z (A1 & A2 & A3 & A4 & A5) (B1 & B2 & B3 & B4 & B5). split; [congruence|]. split; [congruence|]. split; [intros b B; rewrite (B3 b B); apply A3; exact B|].
    assert (DE : forall a b : bytes, {a = b} + {a <> b}) by apply (list_eq_dec N.eq_dec). split.
    + intros [H|H]; rewrite H.
      * rewrite B5 by (rewrite A2, H; exact NEQ). rewrite (A4 H). exact Hc.
      * rewrite B4 by (rewrite A2; exact H). exact Ho.
    + intros N1 N2. rewrite B5 by (rewrite A2; exact N2). apply A5. exact N1.
  - assert (Hm : ~ In OPENMP_URI (map ns_uri m1)).
    { unfold m1. destruct c; [|intros []]. destruct (in_dec (list_eq_dec N.eq_dec) CPP_URI (map ns_uri l)); [intros []|]. intros [X|[]]. cbn [ns_uri] in X. contradiction. }
    assert (Hi : In OPENMP_URI (map ns_uri (l1 ++ m1)) <-> In OPENMP_URI (map ns_uri l)) by (rewrite map_app, in_app_iff, U1; tauto).
    intros n. rewrite in_app_iff, <- Hc, <- Ho. unfold m1 at 1.
    destruct (in_dec (list_eq_dec N.eq_dec) OPENMP_URI (map ns_uri (l1 ++ m1))) as [I|I]; rewrite Hi in I;
    destruct (in_dec (list_eq_dec N.eq_dec) CPP_URI (map ns_uri l)) as [J|J]; clearbody c o; destruct c, o; cbn [In]; split; intuition (congruence || auto).
Qed.

Lemma first_at c a b : ~ In c a -> first_of c (a ++ [c] ++ b) = Some (length a).
Proof.
  induction a as [|x a IH]; cbn; intros H; [rewrite N.eqb_refl; reflexivity|].
  destruct (N.eqb_spec x c) as [->|]; [destruct H; auto|]. cbn in IH. rewrite IH by auto. reflexivity.
Qed.
Lemma last_at c a b : ~ In c b -> last_of c (a ++ [c] ++ b) = Some (length a).
Proof.
  intros H. unfold last_of. replace (rev (a ++ [c] ++ b)) with (rev b ++ [c] ++ rev a) by (rewrite !rev_app_distr; cbn; rewrite <- app_assoc; reflexivity).
  rewrite first_at by (rewrite <- in_rev; exact H). rewrite !app_length, rev_length. cbn [length]. f_equal. lia.
Qed.
Lemma shown_ok g t : content_of g t = shown g t.
Proof. destruct t as [i [k n s c] ch]. destruct k; reflexivity. Qed.
Lemma unit_made g u w n t ps : NoDup (map ns_uri (match uo_namespaces u with Some l => l | None => starting_namespaces end)) ->
  uo_attributes u = flatten ps -> NoDup (map fst ps) ->
  exists v, result_unit g u w n t = Ok v /\ made g u t v /\ (w = false -> part_of u n v) /\ (w = true -> unit_of u ps t v).
Proof.
  intros D Ea Np. unfold result_unit. cbv zeta. cbn [unit_clone uo_namespaces uo_archive uo_settings uo_revision uo_url uo_attributes uo_derived uo_output uo_translator uo_src uo_raw uo_fragment uo_loc uo_error uo_srcml new_unit app].
  set (base := match uo_namespaces u with Some l => l | None => starting_namespaces end) in *.
  destruct (namespaces_ok t base _ D eq_refl) as (l1 & more & En & F1 & M1). rewrite En.
  assert (Es : (if is_kind Comment t then content_of g t else content_of g t) = shown g t) by (rewrite shown_ok; destruct (is_kind Comment t); reflexivity).
  rewrite Es. set (c0 := shown g t).
  assert (MD : forall v, uo_srcml v = c0 -> uo_namespaces v = Some (l1 ++ more) -> uo_archive v = uo_archive u -> u_encoding (uo_settings v) = u_encoding (uo_settings u) ->
      u_eol (uo_settings v) = u_eol (uo_settings u) -> uo_derived v = uo_derived u -> uo_read_header v = true -> uo_read_body v = true -> made g u t v).
  { intros v H1 H2. repeat split; auto. exists l1, more. repeat split; auto; apply M1; assumption. }
  destruct w; cbn [andb].
  - assert (RG : forall a b c, c0 = a ++ [62] ++ b ++ [60] ++ c -> ~ In 62 a -> ~ In 60 c ->
        (after_index (first_of 62 c0), after_index (last_of 60 c0)) = (Z.of_nat (length a) + 1, Z.of_nat (length a + length b) + 2)%Z).
    { intros a b c H Ha Hc. rewrite H at 1. rewrite (first_at 62 a _ Ha). rewrite H. replace (a ++ [62] ++ b ++ [60] ++ c) with ((a ++ [62] ++ b) ++ [60] ++ c) by (rewrite <- !app_assoc; reflexivity).
      rewrite (last_at 60 _ _ Hc). rewrite !app_length. cbn [length after_index]. f_equal; lia. }
    destruct (is_kind Elem t) eqn:K.
    + destruct (update_attributes_ok (own_attributes t) (as_attrs u) ps Ea Np) as (a & ps' & Eu & Ep & Nq & Hf & Hm & Hl).
      unfold own_attributes in Eu. rewrite K in Eu. unfold as_attrs at 1. cbn [uo_settings uo_revision uo_url uo_attributes].
      change (update_attributes _ _) with (update_attributes (as_attrs u) (map (fun a => (n_name (root_label a), n_content (root_label a))) (attrs_of (children t)))). rewrite Eu. cbn [obind].
      eexists. split; [reflexivity|]. split; [apply MD; reflexivity|]. split; [discriminate|]. intros _. split; [|split; [exact RG|exists ps'; repeat split; auto]].
      intros k get I. cbn [unit_fields In] in I. repeat destruct I as [I|I]; try (injection I as <- <-; cbn [uo_settings u_timestamp u_hash u_language u_filename u_version uo_revision uo_url];
        apply Hf; cbn; tauto); try destruct I.
    + eexists. split; [reflexivity|]. split; [apply MD; reflexivity|]. split; [discriminate|]. intros _. unfold unit_of, own_attributes. rewrite K. split; [|split; [exact RG|]].
      * intros k get I. cbn [unit_fields In] in I. repeat destruct I as [I|I]; try (injection I as <- <-; reflexivity); try destruct I.
      * exists ps. cbn. rewrite app_nil_r. repeat split; auto.
  - eexists. split; [reflexivity|]. split; [apply MD; reflexivity|]. split; [|discriminate]. intros _. split; [reflexivity|]. split; [|reflexivity].
    intros k get I. cbn [unit_fields In] in I. repeat destruct I as [I|I]; try (injection I as <- <-; vm_compute (list_eq_dec N.eq_dec _ _); reflexivity); try destruct I.
Qed.
