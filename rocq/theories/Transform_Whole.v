(** srcml_unit_apply_transforms as a whole. *)
From Verif Require Import Base Text_Model Text_Spec Text_Proofs3 Api_Model Transform_Model Transform_Spec Transform_Trees Transform_Marks Transform_Heap Transform_Chain Transform_Results Transform_Units.
Local Open Scope N_scope.

Definition even_fields (u : uobj) (ps : list (bytes * bytes)) : Prop :=
  NoDup (map ns_uri (match uo_namespaces u with Some l => l | None => starting_namespaces end)) /\ uo_attributes u = flatten ps /\ NoDup (map fst ps).
Lemma units_made g u w h ps us : even_fields u ps -> NoDup (flat_map ids (forest h)) -> Forall (fun q => occurs q (forest h)) us -> forall n,
  exists vs, result_units g u w h n (map root_id us) = Ok vs /\ length vs = length us /\
    forall k t v, nth_error us k = Some t -> nth_error vs k = Some v -> made g u t v /\ (w = false -> part_of u (n + k) v) /\ (w = true -> unit_of u ps t v).
Proof.
  intros (D & Ea & Np) Di O. induction us as [|t us IH]; intros n.
  - exists []. split; [reflexivity|]. split; [reflexivity|]. intros [|k] t v H; discriminate H.
  - destruct (unit_made g u w n t ps D Ea Np) as (v & E & M & P & U). destruct (IH (Forall_inv_tail O) (S n)) as (vs & Es & L & Q).
    exists (v :: vs). cbn [map result_units]. rewrite forest_seek, (seek_some_f _ _ Di (Forall_inv O)), E. cbn [obind]. rewrite Es. cbn [obind length].
    split; [reflexivity|]. split; [rewrite L; reflexivity|]. intros [|k] q x Hq Hx; cbn in Hq, Hx.
    + injection Hq as <-. injection Hx as <-. rewrite Nat.add_0_r. auto.
    + rewrite Nat.add_succ_r. exact (Q k q x Hq Hx).
Qed.
Definition is_plain (it : item) : Prop := exists x, i_trans it = TXPath x /\ x_element x = [] /\ x_attr_name x = [].
Lemma plain_ok it : plain it = true <-> is_plain it.
Proof.
  unfold plain, is_plain. destruct (i_trans it) as [x|s|s].
  - rewrite andb_true_iff. split.
    + intros (A & B). exists x. destruct (x_element x); [|discriminate A]. destruct (x_attr_name x); [auto|discriminate B].
    + intros (y & E & A & B). injection E as <-. rewrite A, B. auto.
  - split; [discriminate|]. intros (y & E & _). discriminate E.
  - split; [discriminate|]. intros (y & E & _). discriminate E.
Qed.
Definition named_unit (t : tree) : Prop := n_name (root_label t) = txt "unit".
Lemma transformed g l u t ps : proper g -> l <> [] -> xml_parse g (uo_srcml u) = Some t -> usable g l [t] -> even_fields u ps ->
  exists us r, chain g l [t] us /\ us <> [] /\ apply_transforms g l u true = Ok (Answer ST_OK (Some r)) /\ t_type r = RESULT_UNITS /\
    map uo_srcml (t_units r) = map (shown g) us /\
    exists l0 it, l = l0 ++ [it] /\ forall k q v, nth_error us k = Some q -> nth_error (t_units r) k = Some v -> made g u q v /\
      (is_plain it -> (forall p, In p us -> ~ named_unit p) -> part_of u k v) /\
      (~ is_plain it \/ (forall p, In p us -> named_unit p) -> unit_of u ps q v).
Proof.
  intros Pg Nl Et U Ev. pose proof Pg as (_ & Pp & _). destruct (Pp _ _ Et) as (Dt & Kt).
  assert (R : ready (State (Heap [(Some 0%nat, t)] 0 0) 0 no_result None [root_id t]) [t]).
  { intros last. split; cbn; auto.
    - rewrite app_nil_r. exact Dt.
    - repeat constructor.
    - exists t. split; [reflexivity|exact Kt].
    - constructor; [|constructor]. apply (proj2 (occurs_in t [t])). exists t. split; [left; reflexivity|apply within_self].
    - rewrite app_nil_r. exact Dt.
    - constructor.
    - intros _. split; constructor. }
  destruct (all_ok g l Pg Nl _ [t] U ltac:(discriminate) R eq_refl) as (us & s & E & C & Nu & Ty & (D1 & D2 & D3) & (l0 & it & El & W1 & W2)).
  destruct (units_made g u (r_wrapped (s_last s)) (s_heap s) ps us Ev D1 D2 0) as (vs & Evs & Lv & Q).
  exists us, (Result RESULT_UNITS vs false None None). split; [exact C|]. split; [exact Nu|]. split.
  { unfold apply_transforms. destruct l as [|i l]; [contradiction|]. rewrite Et, E. cbn [obind]. cbv zeta. rewrite Ty. cbn [N.eqb RESULT_UNITS RESULT_STRING RESULT_BOOLEAN RESULT_NUMBER Pos.eqb orb negb].
    rewrite D3, Evs. reflexivity. }
  split; [reflexivity|]. cbn [t_units]. split.
  { clear -Lv Q. assert (Q' : forall k q v, nth_error us k = Some q -> nth_error vs k = Some v -> uo_srcml v = shown g q) by (intros k q v A B; apply (Q k q v A B)). clear Q.
    revert vs Lv Q'. induction us as [|q us IH]; intros [|v vs] L Q; try discriminate L; [reflexivity|]. cbn. f_equal; [exact (Q O q v eq_refl eq_refl)|].
    apply IH; [injection L as L; exact L|]. intros k p x A B. exact (Q (S k) p x A B). }
  exists l0, it. split; [exact El|]. intros k q v Hq Hv. destruct (Q k q v Hq Hv) as (M & P1 & P2). split; [exact M|]. split.
  - intros Pl Nn. apply P1. apply plain_ok in Pl. destruct (W2 Pl) as (p & Ip & ->). apply beqb_false. exact (Nn p Ip).
  - intros H. apply P2. destruct (plain it) eqn:Pl; [|exact (W1 eq_refl)]. destruct H as [H|H]; [destruct H; apply plain_ok; exact Pl|].
    destruct (W2 eq_refl) as (p & Ip & ->). apply beqb_true. exact (H p Ip).
Qed.
(** transformations that are followed by others *)
Fixpoint extendable (g : engines) (l : list item) (ts : list tree) : Prop :=
  match l with
  | [] => True
  | it :: r => (forall t, In t ts -> fits g it t false) /\ (match i_trans it with TXslt _ => length ts = 1%nat | _ => True end) /\
      forall rss, Forall2 (applied g it) ts rss -> extendable g r (concat rss)
  end.
Lemma start_ready g u t : proper g -> xml_parse g (uo_srcml u) = Some t -> ready (State (Heap [(Some 0%nat, t)] 0 0) 0 no_result None [root_id t]) [t].
Proof.
  intros (_ & Pp & _) Et. destruct (Pp _ _ Et) as (Dt & Kt). intros last. split; cbn; auto.
  - rewrite app_nil_r. exact Dt.
  - repeat constructor.
  - exists t. split; [reflexivity|exact Kt].
  - constructor; [|constructor]. apply (proj2 (occurs_in t [t])). exists t. split; [left; reflexivity|apply within_self].
  - rewrite app_nil_r. exact Dt.
  - constructor.
  - intros _. split; constructor.
Qed.
Lemma more_ok g l : proper g -> forall s ts, extendable g l ts -> ts <> [] -> ready s ts -> s_full s = map root_id ts ->
  exists us s', (forall r, apply_all g true (l ++ r) s = apply_all g true r s') /\ chain g l ts us /\ us <> [] /\ ready s' us /\ s_full s' = map root_id us.
Proof.
  intros Pg. induction l as [|it l IH]; intros s ts U Nt R Fs.
  - exists ts, s. split; [reflexivity|]. split; [constructor|]. auto.
  - destruct U as (U1 & U2 & U3).
    assert (Ne : forall rss : list (list tree), Forall (fun rs => rs <> []) rss -> rss <> [] -> concat rss <> []).
    { intros [|[|? ?] rss] F N; [contradiction|destruct (Forall_inv F eq_refl)|discriminate]. }
    destruct (not_xslt it) eqn:X.
    + destruct (nodes_ok g it false ts Pg X U1 (bare s) [] [] (R false)) as (ps & rss & s1 & E1 & A1 & G1 & C1 & N1 & R1). cbn [app] in G1.
      assert (Lo : s_lastdoc s1 = None \/ s_lastdoc s1 = Some (s_cur s1)) by apply G1.
      assert (E2 : match s_lastdoc s1 with
               | Some d => if Nat.eqb d 0 then s1 else State (drop_doc (Some (s_cur s1)) [d] (s_heap s1)) d (s_last s1) (s_lastdoc s1) (s_full s1)
               | None => s1 end = s1).
      { destruct Lo as [Lo|Lo]; rewrite Lo; [reflexivity|]. destruct (Nat.eqb (s_cur s1) 0); [reflexivity|].
        rewrite (drop_kept (Some (s_cur s1)) (s_cur s1) (s_heap s1) (or_intror eq_refl)). destruct s1 as [h c r ld fu]. cbn in Lo |- *. rewrite Lo. reflexivity. }
      assert (Nc : concat rss <> []) by (apply Ne; [exact N1|]; intros ->; inversion A1; subst; contradiction).
      destruct (going_done _ _ _ _ G1) as (Dn1 & Dn2 & Dn3).
      destruct (IH s1 (concat rss)) as (us & s3 & E3 & C3 & N3 & R3 & F3); [apply U3; exact A1|exact Nc|exact (going_ready _ _ _ G1)|exact Dn3|].
      exists us, s3. split; [|split; [apply (Next g it _ ts rss); assumption|auto]]. intros r. cbn [apply_all app]. rewrite Fs. fold (bare s). rewrite E1. cbn [obind]. rewrite E2, Dn3.
      destruct (map root_id (concat rss)) as [|k ks] eqn:Em; [destruct (concat rss); [contradiction|discriminate]|]. apply E3.
    + unfold not_xslt in X. destruct (i_trans it) as [|st|] eqn:Ei; try discriminate X. destruct ts as [|t [|? ?]]; try discriminate U2.
      destruct (styled_ok g it st false (bare s) t Pg Ei (U1 t (or_introl eq_refl)) (R false)) as (rs & s1 & d & E1 & A1 & N1 & L1 & D1 & R1 & W1 & Dn & Rd).
      rewrite L1 in *. set (s2 := State (drop_doc (Some (s_cur s1)) [d] (s_heap s1)) d (s_last s1) (Some d) (s_full s1)) in *.
      destruct Dn as (Dn1 & Dn2 & Dn3). assert (A2 : Forall2 (applied g it) [t] [rs]) by (constructor; [exact A1|constructor]).
      assert (Cr : concat [rs] = rs) by apply app_nil_r.
      destruct (IH s2 rs) as (us & s3 & E3 & C3 & N3 & R3 & F3); [rewrite <- Cr; apply U3; exact A2|exact N1|exact (Rd eq_refl)|exact Dn3|].
      exists us, s3. split; [|split; [apply (Next g it _ [t] [rs]); [exact A2|rewrite Cr; exact C3]|auto]]. intros r. cbn [apply_all app]. rewrite Fs. cbn [map]. fold (bare s). rewrite E1. cbn [obind].
      rewrite L1, (proj2 (Nat.eqb_neq d 0) D1). fold s2. rewrite Dn3. destruct (map root_id rs) as [|k ks] eqn:Em; [destruct rs; [contradiction|discriminate]|]. apply E3.
Qed.
(** a transformation that gives no nodes for the first result is the last *)
Lemma first_ends g it r s q us n : (forall k, apply_item g it k [q] = Ok ([q], None, r)) -> r_nodes r = None -> ready s (q :: us) -> s_full s = map root_id (q :: us) ->
  exists s', apply_all g true (it :: n) s = Ok s' /\ s_last s' = r /\ s_full s' = [].
Proof.
  intros A Rn R Fs. destruct (R false) as [D Dk Lc (e & Te & Ke) Ld Th _ El _ _ _ _]. cbn [app] in Th. pose proof (Forall_inv Th) as Ot. pose proof (Forall_inv El) as Kt.
  destruct (set_root_ok _ _ _ _ D Dk Lc Te Ke Ot Kt) as (h1 & E1 & P1 & T1 & Dk1 & Ld1). cbn [apply_all]. rewrite Fs. fold (bare s). cbn [map apply_nodes]. unfold apply_node.
  rewrite E1. cbn [obind]. rewrite T1, A. cbn [obind s_last]. rewrite Rn. cbn [s_lastdoc s_full bare]. cbn [obind s_lastdoc s_full]. eexists. split; [reflexivity|]. split; reflexivity.
Qed.
Definition value_result (v : xvalue) : option result :=
  match v with
  | XBoolean b => Some (Result RESULT_BOOLEAN [] b None None)
  | XNumber n => Some (Result RESULT_NUMBER [] false (Some n) None)
  | XString s => Some (Result RESULT_STRING [] false None (Some s))
  | XNodes _ => None
  end.
Lemma value_ok g l x ps n u t v r : proper g -> xml_parse g (uo_srcml u) = Some t -> extendable g l [t] ->
  (forall us, chain g l [t] us -> exists q rest, us = q :: rest /\ xpath_eval g (x_xpath x) [q] = Some v) -> value_result v = Some r ->
  apply_transforms g (l ++ Item (TXPath x) ps :: n) u true = Ok (Answer ST_OK (Some r)).
Proof.
  intros Pg Et U Q V. destruct (more_ok g l Pg _ [t] U ltac:(discriminate) (start_ready g u t Pg Et) eq_refl) as (us & s1 & E & C & Nu & R & Fs).
  destruct (Q us C) as (q & rest & -> & Ev).
  assert (K : is_kind Elem q = true) by (destruct (R false) as [_ _ _ _ _ _ _ El _ _ _ _]; exact (Forall_inv El)).
  assert (A : exists tr, (forall k, apply_item g (Item (TXPath x) ps) k [q] = Ok ([q], None, tr)) /\ r_nodes tr = None /\
    (forall s0, s_last s0 = tr -> True) /\ (r_type tr =? RESULT_STRING) || (r_type tr =? RESULT_BOOLEAN) || (r_type tr =? RESULT_NUMBER) = true /\
    (if r_type tr =? RESULT_STRING then Result (r_type tr) [] false None (Some (r_string tr)) else
     if r_type tr =? RESULT_BOOLEAN then Result (r_type tr) [] (r_bool tr) None None else Result (r_type tr) [] false (Some (r_number tr)) None) = r).
  { destruct v as [o|b|m|w]; [discriminate V|..]; injection V as <-; eexists; (split; [intros k; unfold apply_item; cbn [i_trans]; unfold apply_xpath; rewrite (in_doc_kind _ K), Ev; reflexivity|]);
      (split; [reflexivity|]); (split; [auto|]); split; reflexivity. }
  destruct A as (tr & A & Rn & _ & Ty & Er). destruct (first_ends g _ tr s1 q rest n A Rn R Fs) as (s2 & E2 & L2 & F2).
  unfold apply_transforms. destruct (l ++ Item (TXPath x) ps :: n) as [|i l'] eqn:El; [destruct l; discriminate El|]. rewrite <- El, Et, E, E2. cbn [obind]. cbv zeta. rewrite L2. cbn [negb].
  clear -Er Ty. destruct (r_type tr =? RESULT_STRING); [rewrite Er; reflexivity|]. destruct (r_type tr =? RESULT_BOOLEAN); [rewrite Er; reflexivity|].
  destruct (r_type tr =? RESULT_NUMBER); [rewrite Er; reflexivity|discriminate Ty].
Qed.
Lemma nothing_ok g l it n u t : proper g -> xml_parse g (uo_srcml u) = Some t -> extendable g l [t] ->
  (forall us, chain g l [t] us -> exists q rest, us = q :: rest /\
    match i_trans it with
    | TXPath x => x_element x = [] /\ x_attr_name x = [] /\ xpath_eval g (x_xpath x) [q] = Some (XNodes (Some []))
    | TRng s => rng_valid g s [q] = false
    | TXslt s => forall k, xslt_run g s (i_params it) k [q] = Some []
    end) ->
  apply_transforms g (l ++ it :: n) u true = Ok (Answer ST_OK (Some (Result RESULT_NONE [] false None None))).
Proof.
  intros Pg Et U Q. destruct (more_ok g l Pg _ [t] U ltac:(discriminate) (start_ready g u t Pg Et) eq_refl) as (us & s1 & E & C & Nu & R & Fs).
  destruct (Q us C) as (q & rest & -> & Ev).
  assert (K : is_kind Elem q = true) by (destruct (R false) as [_ _ _ _ _ _ _ El _ _ _ _]; exact (Forall_inv El)).
  assert (A : forall k, apply_item g it k [q] = Ok ([q], None, no_result)).
  { intros k. unfold apply_item. destruct (i_trans it) as [x|s|s].
    - destruct Ev as (E1 & E2 & E3). unfold apply_xpath. rewrite (in_doc_kind _ K), E3, E1, E2. reflexivity.
    - unfold apply_xslt. rewrite Ev. reflexivity.
    - unfold apply_rng. rewrite Ev. reflexivity. }
  destruct (first_ends g _ no_result s1 q rest n A eq_refl R Fs) as (s2 & E2 & L2 & F2).
  unfold apply_transforms. destruct (l ++ it :: n) as [|i l'] eqn:El; [destruct l; discriminate El|]. rewrite <- El, Et, E, E2. cbn [obind]. cbv zeta. rewrite L2. reflexivity.
Qed.
Lemma chained g l u t ps : proper g -> l <> [] -> xml_parse g (uo_srcml u) = Some t -> usable g l [t] -> even_fields u ps ->
  exists us r, chain g l [t] us /\ us <> [] /\ apply_transforms g l u true = Ok (Answer ST_OK (Some r)) /\ t_type r = RESULT_UNITS /\
    map uo_srcml (t_units r) = map (shown g) us.
Proof.
  intros A B C D E. destruct (transformed g l u t ps A B C D E) as (us & r & H1 & H2 & H3 & H4 & H5 & _). exists us, r. auto.
Qed.
