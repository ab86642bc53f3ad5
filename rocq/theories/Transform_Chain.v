(** The transformations of an archive, one after the other, on the results so far (C50). *)
From Verif Require Import Base Text_Model Api_Model Transform_Model Transform_Spec Transform_Trees Transform_Marks Transform_Heap.
From Coq Require Import Permutation.

(** [ts] are still to be transformed; [ps] were, with the results [us] in them *)
Record going (last : bool) (s : state) (ps ts us : list tree) : Prop := Going {
  go_ids : NoDup (flat_map ids (forest (s_heap s)));
  go_docs : docs_ok (s_heap s);
  go_cur : s_cur s <= h_doc (s_heap s);
  go_top : exists e, tops (s_cur s) (s_heap s) = [e] /\ is_kind Elem e = true;
  go_lastdoc : s_lastdoc s = None \/ s_lastdoc s = Some (s_cur s);
  go_there : Forall (fun q => occurs q (forest (s_heap s))) (ps ++ ts);
  go_apart : NoDup (flat_map ids (ps ++ ts));
  go_elem : Forall (fun q => is_kind Elem q = true) ts;
  go_results : Forall (fun q => occurs q ps) us;
  go_full : s_full s = map root_id us;
  go_once : NoDup (map root_id us);
  go_more : last = false -> NoDup (flat_map ids us) /\ Forall (fun q => is_kind Elem q = true) us }.

Lemma drop_kept o cur h : o = None \/ o = Some cur -> drop_doc o [cur] h = h.
Proof. intros [->| ->]; [reflexivity|]. unfold drop_doc. cbn. rewrite Nat.eqb_refl. cbn. rewrite orb_true_r. reflexivity. Qed.
Lemma flat_in_f i (q : tree) F : In i (ids q) -> In q F -> In i (flat_map ids F).
Proof. intros I Q. apply in_flat_map. exists q. auto. Qed.

Lemma node_ok g it last s ps t ts us : proper g -> not_xslt it = true -> fits g it t last -> going last s ps (t :: ts) us ->
  exists p rs s', apply_node g it (root_id t) s = Ok s' /\ applied g it t rs /\ rs <> [] /\ going last s' (ps ++ [p]) ts (us ++ rs) /\
    s_cur s' = s_cur s /\ r_type (s_last s') = RESULT_UNITS /\ (exists l, r_nodes (s_last s') = Some l) /\ wrap_known it rs (s_last s').
Proof.
  intros Pg X Ft [D Dk Lc (e & Te & Ke) Ld Th Ap El Re Fu On Mo].
  assert (Ot : occurs t (forest (s_heap s))) by (rewrite Forall_forall in Th; apply Th; apply in_app_iff; right; left; reflexivity).
  pose proof (Forall_inv El) as Kt. pose proof (Forall_inv_tail El) as El'.
  destruct (set_root_ok _ _ _ _ D Dk Lc Te Ke Ot Kt) as (h1 & E1 & P1 & T1 & Dk1 & Ld1).
  assert (D1 : NoDup (flat_map ids (forest h1))).
  { apply (Permutation_NoDup (Permutation_sym (perm_ids _ _ P1))). exact (Permutation_NoDup (prune_perm_f _ _ D Ot) D). }
  assert (Dt : NoDup (ids t)).
  { apply (Permutation_NoDup (perm_ids _ _ P1)) in D1. cbn in D1. apply NoDup_app_iff in D1. exact (proj1 D1). }
  assert (N1 := next_fresh h1). rewrite Forall_forall in N1.
  assert (It : incl (ids t) (flat_map ids (forest h1))).
  { intros i I. apply (Permutation_in _ (Permutation_sym (perm_ids _ _ P1))). cbn. apply in_app_iff. left. exact I. }
  destruct (item_ok g it t (next_id h1) last Pg X Dt Kt) as (t' & rs & r & Ea & Er & En & Ap' & Ne & Ro & Wi & Dt' & Gr & Kt' & Mo' & Wk); [|exact Ft|].
  { apply Forall_forall. intros i I. apply N1. exact (It i I). }
  destruct (put_tops_ok (s_cur s) h1 t t' T1) as (F2 & Pa & Pb & Tb & Ib).
  set (h2 := Heap (put_tops (s_cur s) [t'] (h_trees h1)) (h_node h1) (h_doc h1)).
  exists t', rs, (State h2 (s_cur s) r None (s_full s ++ map root_id rs)).
  assert (Pc : Permutation F2 (flat_map (prune (root_id t)) (forest (s_heap s)))).
  { apply (Permutation_cons_inv (a := t)). rewrite <- Pa. exact P1. }
  assert (D2 : NoDup (flat_map ids (t' :: F2))).
  { apply (Permutation_NoDup (perm_ids _ _ Pa)) in D1 as D3. cbn in D3 |- *. apply NoDup_app_iff in D3 as (_ & D3 & D4).
    apply NoDup_app_iff. repeat split; [exact Dt'|exact D3|]. intros i I J. apply Gr in I as [I|I]; [exact (D4 i I J)|].
    assert (i < next_id h1); [|lia]. apply N1. apply (Permutation_in _ (Permutation_sym (perm_ids _ _ Pa))). cbn. apply in_app_iff. right. exact J. }
  assert (Fr : Permutation (forest h2) (t' :: F2)) by exact Pb.
  assert (Dp : NoDup (flat_map ids (ps ++ ts)) /\ (forall i, In i (ids t) -> ~ In i (flat_map ids (ps ++ ts)))).
  { rewrite flat_map_app in Ap |- *. cbn in Ap. apply NoDup_app_iff in Ap as (A1 & A2 & A3). apply NoDup_app_iff in A2 as (A4 & A5 & A6). split.
    - apply NoDup_app_iff. repeat split; [exact A1|exact A5|]. intros i I J. apply (A3 i I). apply in_app_iff. right. exact J.
    - intros i I J. apply in_app_iff in J as [J|J]; [apply (A3 i J); apply in_app_iff; left; exact I|exact (A6 i I J)]. }
  destruct Dp as (Dp & Dq).
  assert (Oc : forall q, In q (ps ++ ts) -> occurs q F2).
  { intros q Q. apply (occurs_perm _ _ _ (Permutation_sym Pc)). apply prune_keeps_f.
    - rewrite Forall_forall in Th. apply Th. apply in_app_iff in Q. apply in_app_iff. cbn. tauto.
    - intros I. apply (Dq (root_id t) (root_ids t)). exact (flat_in_f _ _ _ I Q).
    - intros p P E I. assert (p = t) by exact (node_unique _ _ _ D P Ot E). subst p.
      apply (Dq (root_id q) I). exact (flat_in_f _ _ _ (root_ids q) Q). }
  assert (Dn : forall i, In i (ids t') -> ~ In i (flat_map ids (ps ++ ts))).
  { intros i I J. apply in_flat_map in J. destruct J as (q & Q & J). cbn in D2. apply NoDup_app_iff in D2 as (_ & _ & D2).
    apply (D2 i I). exact (occurs_ids _ _ (Oc q Q) i J). }
  assert (Ru : forall i, In i (map root_id us) -> In i (flat_map ids ps)).
  { intros i I. apply in_map_iff in I. destruct I as (q & <- & Q). rewrite Forall_forall in Re. exact (occurs_ids _ _ (Re q Q) _ (root_ids q)). }
  assert (Fi : forall i, In i (flat_map ids ps) -> In i (flat_map ids (ps ++ ts))) by (intros i I; rewrite flat_map_app; apply in_app_iff; auto).
  assert (Ir : forall i, In i (map root_id rs) -> In i (ids t')).
  { intros i I. apply in_map_iff in I. destruct I as (q & <- & Q). rewrite Forall_forall in Wi. exact (within_root _ _ (Wi q Q)). }
  assert (On' : NoDup (map root_id us ++ map root_id rs)).
  { apply NoDup_app_iff. repeat split; [exact On|exact Ro|]. intros i I J. exact (Dn i (Ir i J) (Fi i (Ru i I))). }
  split; [|split; [exact Ap'|split; [exact Ne|split; [|split; [reflexivity|split; [exact Er|split; [exists (map root_id rs); exact En|exact Wk]]]]]]].
  - unfold apply_node. rewrite E1. cbn [obind]. rewrite T1, Ea. cbn [obind]. rewrite (drop_kept _ _ _ Ld), En. rewrite Fu, (merge_new _ _ On'). reflexivity.
  - split; cbn [s_heap s_cur s_lastdoc s_full].
    + apply (Permutation_NoDup (Permutation_sym (perm_ids _ _ Fr))). exact D2.
    + unfold docs_ok, h2. cbn [h_trees h_doc]. apply Forall_forall. intros p P. apply (in_map fst) in P. apply Ib in P as [P|P].
      * rewrite <- P, Ld1. exact Lc.
      * apply in_map_iff in P. destruct P as (q & <- & Q). unfold docs_ok in Dk1. rewrite Forall_forall in Dk1. exact (Dk1 q Q).
    + unfold h2. cbn. rewrite Ld1. exact Lc.
    + exists t'. split; [exact Tb|exact Kt'].
    + left. reflexivity.
    + apply Forall_forall. intros q Q. apply (occurs_perm _ _ _ (Permutation_sym Fr)). rewrite <- app_assoc in Q. cbn in Q.
      assert (Q' : q = t' \/ In q (ps ++ ts)) by (apply in_app_iff in Q as [Q|[Q|Q]]; [right|left|right]; try (apply in_app_iff; auto); auto).
      destruct Q' as [->|Q']; [apply occurs_in; exists t'; split; [left; reflexivity|apply within_self]|].
      apply occurs_in. destruct (proj1 (occurs_in q F2) (Oc q Q')) as (w & W & V). exists w. split; [right; exact W|exact V].
    + rewrite <- app_assoc. rewrite !flat_map_app in *. cbn. rewrite app_nil_r.
      apply (Permutation_NoDup (l := ids t' ++ flat_map ids ps ++ flat_map ids ts)).
      * rewrite !app_assoc. apply Permutation_app_tail. apply Permutation_app_comm.
      * apply NoDup_app_iff. repeat split; [exact Dt'|exact Dp|]. intros i I J. exact (Dn i I J).
    + exact El'.
    + apply Forall_app. split.
      * apply (Forall_impl _ (P := fun q => occurs q ps)); [|exact Re]. intros q Q. apply occurs_in in Q. destruct Q as (w & W & V). apply occurs_in. exists w.
        split; [apply in_app_iff; auto|exact V].
      * apply (Forall_impl _ (P := fun q => within q t')); [|exact Wi]. intros q Q. apply occurs_in. exists t'. split; [apply in_app_iff; right; left; reflexivity|exact Q].
    + rewrite Fu, map_app. reflexivity.
    + rewrite map_app. exact On'.
    + intros Hl. destruct (Mo Hl) as (M1 & M2). destruct (Mo' Hl) as (M3 & M4). split; [|apply Forall_app; auto].
      rewrite flat_map_app. apply NoDup_app_iff. repeat split; [exact M1|exact M3|]. intros i I J.
      apply in_flat_map in J. destruct J as (q & Q & J). rewrite Forall_forall in Wi.
      apply (Dn i (within_ids _ _ (Wi q Q) i J)). apply Fi. apply in_flat_map in I. destruct I as (w & W & V). rewrite Forall_forall in Re.
      exact (occurs_ids _ _ (Re w W) i V).
Qed.
Lemma nodes_ok g it last ts : proper g -> not_xslt it = true -> (forall t, In t ts -> fits g it t last) -> forall s ps us, going last s ps ts us ->
  exists ps' rss s', apply_nodes g it (map root_id ts) s = Ok s' /\ Forall2 (applied g it) ts rss /\ going last s' ps' [] (us ++ concat rss) /\
    s_cur s' = s_cur s /\ Forall (fun rs => rs <> []) rss /\ (ts <> [] -> r_type (s_last s') = RESULT_UNITS /\ wrap_known it (concat rss) (s_last s')).
Proof.
  intros Pg X. induction ts as [|t ts IH]; intros F s ps us G.
  - exists ps, [], s. cbn. rewrite app_nil_r. split; [reflexivity|]. split; [constructor|]. split; [exact G|]. split; [reflexivity|]. split; [constructor|]. intros H. destruct (H eq_refl).
  - destruct (node_ok g it last s ps t ts us Pg X (F t (or_introl eq_refl)) G) as (p & rs & s1 & E1 & A1 & N1 & G1 & C1 & R1 & (l & L1) & K1).
    destruct (IH (fun q Q => F q (or_intror Q)) s1 _ _ G1) as (ps' & rss & s2 & E2 & A2 & G2 & C2 & N2 & R2).
    exists ps', (rs :: rss), s2. cbn [map apply_nodes]. rewrite E1. cbn [obind]. rewrite L1, E2. split; [reflexivity|].
    split; [constructor; assumption|]. cbn [concat]. rewrite app_assoc. split; [exact G2|]. split; [rewrite C2; exact C1|]. split; [constructor; assumption|].
    intros _. destruct ts as [|q ts].
    + cbn in E2. injection E2 as <-. split; [exact R1|]. destruct K1 as (K1 & K3). split; [exact K1|]. intros Pl. destruct (K3 Pl) as (k & I & E). exists k.
      split; [apply in_app_iff; left; exact I|exact E].
    + destruct (R2 ltac:(discriminate)) as (R3 & K2 & K3). split; [exact R3|]. split; [exact K2|]. intros Pl. destruct (K3 Pl) as (k & I & E). exists k.
      split; [apply in_app_iff; right; exact I|exact E].
Qed.
(** between two transformations; and at the end *)
Definition bare (s : state) : state := State (s_heap s) (s_cur s) (s_last s) (s_lastdoc s) [].
Definition done (s : state) (us : list tree) : Prop :=
  NoDup (flat_map ids (forest (s_heap s))) /\ Forall (fun q => occurs q (forest (s_heap s))) us /\ s_full s = map root_id us.
Definition ready (s : state) (us : list tree) : Prop := forall last, going last (bare s) [] us [].
Lemma going_done last s ps us : going last s ps [] us -> done s us.
Proof.
  intros G. split; [apply G|]. split; [|apply G]. destruct G as [_ _ _ _ _ Th _ _ Re _ _ _]. rewrite app_nil_r in Th. rewrite Forall_forall in *. intros q Q.
  apply Re in Q. apply occurs_in in Q. destruct Q as (p & P & W). exact (occurs_within _ _ _ W (Th p P)).
Qed.
Lemma going_ready s ps us : going false s ps [] us -> ready s us.
Proof.
  intros G last. destruct (going_done _ _ _ _ G) as (D & Th & _). destruct G as [_ Dk Lc Te Ld _ _ _ _ _ _ Mo]. destruct (Mo eq_refl) as (M1 & M2).
  split; cbn; auto; [constructor|]. intros _. split; constructor.
Qed.

Lemma filter_all {A} (f : A -> bool) l : Forall (fun x => f x = true) l -> filter f l = l.
Proof. induction 1 as [|x l H F IH]; cbn; [reflexivity|]. rewrite H, IH. reflexivity. Qed.
Lemma filter_no {A} (f : A -> bool) l : (forall x, In x l -> f x = false) -> filter f l = [].
Proof. induction l as [|x l IH]; cbn; intros H; [reflexivity|]. rewrite (H x (or_introl eq_refl)). apply IH. intros y Y. apply H. right. exact Y. Qed.
Lemma NoDup_incl_filter (f : option nat * tree -> bool) l : NoDup (flat_map ids (map snd l)) -> NoDup (flat_map ids (map snd (filter f l))).
Proof.
  induction l as [|e l IH]; cbn; [auto|]. intros D. apply NoDup_app_iff in D as (D1 & D2 & D3). destruct (f e); cbn; [|exact (IH D2)].
  apply NoDup_app_iff. repeat split; [exact D1|exact (IH D2)|]. intros i I J. apply (D3 i I). clear -J.
  apply in_flat_map in J. destruct J as (t & T & J). apply in_map_iff in T. destruct T as (p & <- & T). apply filter_In in T as (T & _).
  apply in_flat_map. exists (snd p). split; [apply in_map; exact T|exact J].
Qed.
(** a stylesheet, on one tree *)
Lemma styled_ok g it st last s t : proper g -> i_trans it = TXslt st -> fits g it t last -> going last s [] [t] [] ->
  exists rs s' d, apply_nodes g it [root_id t] s = Ok s' /\ applied g it t rs /\ rs <> [] /\ s_lastdoc s' = Some d /\ d <> 0 /\
    r_type (s_last s') = RESULT_UNITS /\ r_wrapped (s_last s') = true /\
    done (State (drop_doc (Some (s_cur s')) [d] (s_heap s')) d (s_last s') (s_lastdoc s') (s_full s')) rs /\
    (last = false -> ready (State (drop_doc (Some (s_cur s')) [d] (s_heap s')) d (s_last s') (s_lastdoc s') (s_full s')) rs).
Proof.
  intros (Px & Pp & Ps) Ei Ft [D Dk Lc (e & Te & Ke) Ld Th Ap El Re Fu On Mo].
  pose proof (Forall_inv El) as Kt. pose proof (Forall_inv Th) as Ot. cbn in Ot.
  destruct (set_root_ok _ _ _ _ D Dk Lc Te Ke Ot Kt) as (h1 & E1 & P1 & T1 & Dk1 & Ld1).
  assert (D1 : NoDup (flat_map ids (forest h1))).
  { apply (Permutation_NoDup (Permutation_sym (perm_ids _ _ P1))). exact (Permutation_NoDup (prune_perm_f _ _ D Ot) D). }
  assert (N1 := next_fresh h1).
  assert (It : Forall (fun i => i < next_id h1) (ids t)).
  { apply Forall_forall. intros i I. rewrite Forall_forall in N1. apply N1.
    apply (Permutation_in _ (Permutation_sym (perm_ids _ _ P1))). cbn. apply in_app_iff. left. exact I. }
  unfold fits in Ft. rewrite Ei in Ft. destruct (Ft _ It) as (u & Eu & Nu & Ku & Lu).
  destruct (Ps _ _ _ _ _ Eu) as (Du & Bu).
  assert (Ax : apply_xslt g st (i_params it) (next_id h1) [t] = Ok (Some u, units_result (map root_id u) true)).
  { unfold apply_xslt. rewrite Eu. destruct u as [|c u]; [contradiction|]. cbv zeta. destruct u as [|d u].
    - rewrite (Forall_inv Ku). reflexivity.
    - rewrite (Forall_inv (Forall_inv_tail Ku)), (filter_all _ _ Ku). reflexivity. }
  destruct (put_tops_ok (s_cur s) h1 t t T1) as (F2 & Pa & Pb & Tb & Ib).
  set (l2 := put_tops (s_cur s) [t] (h_trees h1)) in *. set (d := S (h_doc h1)).
  set (h2 := Heap (l2 ++ map (fun q => (Some d, q)) u) (h_node h1) d).
  exists u, (State h2 (s_cur s) (units_result (map root_id u) true) (Some d) (map root_id u)), d.
  assert (Dl : forall p, In p l2 -> in_doc d p = false).
  { intros p P. apply (in_map fst) in P. apply Ib in P. assert (H : forall o, In o (Some (s_cur s) :: map fst (h_trees h1)) -> match o with Some k => d =? k | None => false end = false).
    { intros o [<-|O]; [apply Nat.eqb_neq; unfold d; lia|]. apply in_map_iff in O. destruct O as (q & <- & Q). unfold docs_ok in Dk1. rewrite Forall_forall in Dk1.
      specialize (Dk1 q Q). destruct (fst q); [apply Nat.eqb_neq; unfold d; lia|reflexivity]. }
    exact (H _ P). }
  assert (Fo : map snd (map (fun q => (Some d, q)) u) = u) by (rewrite map_map; apply map_id).
  assert (D2 : NoDup (flat_map ids (map snd (l2 ++ map (fun q => (Some d, q)) u)))).
  { rewrite map_app, Fo, flat_map_app. assert (Pd : Permutation (map snd l2) (forest h1)) by (rewrite Pb; symmetry; exact Pa).
    apply NoDup_app_iff. repeat split.
    - apply (Permutation_NoDup (Permutation_sym (perm_ids _ _ Pd))). exact D1.
    - exact Du.
    - intros i I J. apply (Permutation_in _ (perm_ids _ _ Pd)) in I. rewrite Forall_forall in N1, Bu. specialize (N1 i I). specialize (Bu i J). lia. }
  assert (Dr : exists f, drop_doc (Some (s_cur s)) [d] h2 = Heap (filter f l2 ++ map (fun q => (Some d, q)) u) (h_node h1) d).
  { unfold drop_doc. destruct (existsb _ _).
    - exists (fun _ => true). unfold h2. rewrite (filter_all (fun _ => true) l2); [reflexivity|]. apply Forall_forall. reflexivity.
    - exists (fun p => negb (in_doc (s_cur s) p)). unfold free_doc, h2. cbn. rewrite filter_app. f_equal. f_equal. apply filter_all.
      apply Forall_forall. intros p P. apply in_map_iff in P. destruct P as (q & <- & _). unfold in_doc. cbn [fst]. apply negb_true_iff. apply Nat.eqb_neq. unfold d. lia. }
  destruct Dr as (f & Dr).
  assert (D3 : NoDup (flat_map ids (map snd (filter f l2 ++ map (fun q => (Some d, q)) u)))).
  { rewrite map_app, Fo, flat_map_app in D2 |- *. apply NoDup_app_iff in D2 as (A1 & A2 & A3). apply NoDup_app_iff. repeat split.
    - apply NoDup_incl_filter. exact A1.
    - exact A2.
    - intros i I. apply A3. apply in_flat_map in I. destruct I as (q & Q & I). apply in_map_iff in Q. destruct Q as (p & <- & Q). apply filter_In in Q as (Q & _).
      apply in_flat_map. exists (snd p). split; [apply in_map; exact Q|exact I]. }
  assert (O3 : Forall (fun q => occurs q (map snd (filter f l2 ++ map (fun q => (Some d, q)) u))) u).
  { apply Forall_forall. intros q Q. apply occurs_in. exists q. split; [|apply within_self]. rewrite map_app, Fo. apply in_app_iff. right. exact Q. }
  split; [|split; [|split; [exact Nu|split; [reflexivity|split; [discriminate|split; [reflexivity|split; [reflexivity|split]]]]]]].
  - cbn [apply_nodes]. unfold apply_node. rewrite E1. cbn [obind]. rewrite T1. unfold apply_item. rewrite Ei, Ax. cbn [obind fst snd].
    rewrite (drop_kept _ _ _ Ld). cbn [r_nodes units_result s_last]. rewrite Fu. cbn [map]. rewrite merge_new; [reflexivity|]. cbn.
    clear -Du. induction u as [|q u IH]; [constructor|]. cbn in *. apply NoDup_app_iff in Du as (A1 & A2 & A3). constructor; [|exact (IH A2)].
    intros I. apply in_map_iff in I. destruct I as (p & E & P). apply (A3 (root_id q) (root_ids q)). rewrite <- E. exact (flat_in_f _ _ _ (root_ids p) P).
  - apply (Styled g it t st (next_id h1) u); auto.
  - cbn [s_cur s_heap]. rewrite Dr. split; [exact D3|]. split; [exact O3|reflexivity].
  - intros Hl last'. specialize (Lu Hl). destruct u as [|c [|? ?]]; try discriminate Lu. cbn [s_cur s_heap bare]. rewrite Dr. unfold bare. cbn [s_heap s_cur s_last s_lastdoc s_full].
    split; cbn [s_heap s_cur s_last s_lastdoc s_full h_trees h_doc forest]; auto.
    + unfold docs_ok. cbn [h_trees h_doc]. apply Forall_app. split.
      * apply Forall_forall. intros p P. apply filter_In in P as (P & _). apply (in_map fst) in P. apply Ib in P as [P|P]; [rewrite <- P; unfold d; lia|].
        apply in_map_iff in P. destruct P as (q & <- & Q). unfold docs_ok in Dk1. rewrite Forall_forall in Dk1. specialize (Dk1 q Q). destruct (fst q); [unfold d; lia|exact Logic.I].
      * repeat constructor.
    + exists c. split; [|exact (Forall_inv Ku)]. unfold tops. cbn [h_trees]. rewrite filter_app, (filter_no (in_doc d)).
      * cbn [map filter]. change (in_doc d (Some d, c)) with (Nat.eqb d d). rewrite Nat.eqb_refl. reflexivity.
      * intros p P. apply filter_In in P as (P & _). exact (Dl p P).
Qed.
(** all transformations *)
Lemma all_ok g l : proper g -> l <> [] -> forall s ts, usable g l ts -> ts <> [] -> ready s ts -> s_full s = map root_id ts ->
  exists us s', apply_all g true l s = Ok s' /\ chain g l ts us /\ us <> [] /\ r_type (s_last s') = RESULT_UNITS /\ done s' us /\
    exists l0 it, l = l0 ++ [it] /\ wrap_known it us (s_last s').
Proof.
  intros Pg. induction l as [|it l IH]; [contradiction|]. intros _ s ts (U1 & U2 & U3) Nt R Fs.
  set (last := match l with [] => true | _ => false end) in *.
  assert (Ne : forall rss : list (list tree), Forall (fun rs => rs <> []) rss -> rss <> [] -> concat rss <> []).
  { intros [|[|? ?] rss] F N; [contradiction|destruct (Forall_inv F eq_refl)|discriminate]. }
  destruct (not_xslt it) eqn:X.
  - destruct (nodes_ok g it last ts Pg X U1 (bare s) [] [] (R last)) as (ps & rss & s1 & E1 & A1 & G1 & C1 & N1 & R1). cbn [app] in G1.
    assert (Lo : s_lastdoc s1 = None \/ s_lastdoc s1 = Some (s_cur s1)) by apply G1.
    assert (E2 : match s_lastdoc s1 with
               | Some d => if Nat.eqb d 0 then s1 else State (drop_doc (Some (s_cur s1)) [d] (s_heap s1)) d (s_last s1) (s_lastdoc s1) (s_full s1)
               | None => s1 end = s1).
    { destruct Lo as [Lo|Lo]; rewrite Lo; [reflexivity|]. destruct (Nat.eqb (s_cur s1) 0); [reflexivity|].
      rewrite (drop_kept (Some (s_cur s1)) (s_cur s1) (s_heap s1) (or_intror eq_refl)). destruct s1 as [h c r ld fu]. cbn in Lo |- *. rewrite Lo. reflexivity. }
    assert (Nc : concat rss <> []) by (apply Ne; [exact N1|]; intros ->; inversion A1; subst; contradiction).
    destruct (going_done _ _ _ _ G1) as (Dn1 & Dn2 & Dn3).
    cbn [apply_all]. rewrite Fs. fold (bare s). rewrite E1. cbn [obind]. rewrite E2, Dn3.
    destruct (map root_id (concat rss)) as [|k ks] eqn:Em; [destruct (concat rss); [contradiction|discriminate]|].
    destruct l as [|it2 l].
    + exists (concat rss), s1. cbn [apply_all]. split; [reflexivity|]. split; [apply (Next g it [] ts rss); [exact A1|constructor]|]. split; [exact Nc|].
      destruct (R1 Nt) as (R2 & K2).
      split; [exact R2|]. split; [split; [exact Dn1|]; split; [exact Dn2|rewrite Dn3; symmetry; exact Em]|]. exists [], it. split; [reflexivity|exact K2].
    + destruct (IH ltac:(discriminate) s1 (concat rss)) as (us & s3 & E3 & C3 & N3 & R3 & D3 & (l0 & it0 & El0 & K0)); [apply U3; exact A1|exact Nc|exact (going_ready _ _ _ G1)|rewrite Dn3; symmetry; exact Em|].
      exists us, s3. split; [exact E3|]. split; [apply (Next g it _ ts rss); assumption|]. repeat (split; [assumption|]). exists (it :: l0), it0. split; [cbn; rewrite El0; reflexivity|exact K0].
  - unfold not_xslt in X. destruct (i_trans it) as [|st|] eqn:Ei; try discriminate X. destruct ts as [|t [|? ?]]; try discriminate U2.
    destruct (styled_ok g it st last (bare s) t Pg Ei (U1 t (or_introl eq_refl)) (R last)) as (rs & s1 & d & E1 & A1 & N1 & L1 & D1 & R1 & W1 & Dn & Rd).
    cbn [apply_all]. rewrite Fs. cbn [map]. fold (bare s). rewrite E1. cbn [obind]. rewrite L1 in *. rewrite (proj2 (Nat.eqb_neq d 0) D1).
    set (s2 := State (drop_doc (Some (s_cur s1)) [d] (s_heap s1)) d (s_last s1) (Some d) (s_full s1)) in *.
    destruct Dn as (Dn1 & Dn2 & Dn3). rewrite Dn3. assert (A2 : Forall2 (applied g it) [t] [rs]) by (constructor; [exact A1|constructor]).
    assert (Cr : concat [rs] = rs) by apply app_nil_r.
    destruct (map root_id rs) as [|k ks] eqn:Em; [destruct rs; [contradiction|discriminate]|].
    destruct l as [|it2 l].
    + exists rs, s2. cbn [apply_all]. split; [reflexivity|]. split; [apply (Next g it [] [t] [rs]); [exact A2|rewrite Cr; constructor]|]. split; [exact N1|].
      split; [exact R1|]. split; [split; [exact Dn1|]; split; [exact Dn2|rewrite Dn3; symmetry; exact Em]|]. exists [], it. split; [reflexivity|].
      split; [intros _; exact W1|]. unfold plain. rewrite Ei. discriminate.
    + destruct (IH ltac:(discriminate) s2 rs) as (us & s3 & E3 & C3 & N3 & R3 & D3 & (l0 & it0 & El0 & K0)); [rewrite <- Cr; apply U3; exact A2|exact N1|exact (Rd eq_refl)|rewrite Dn3; symmetry; exact Em|].
      exists us, s3. split; [exact E3|]. split; [apply (Next g it _ [t] [rs]); [exact A2|rewrite Cr; exact C3]|]. repeat (split; [assumption|]). exists (it :: l0), it0. split; [cbn; rewrite El0; reflexivity|exact K0].
Qed.
