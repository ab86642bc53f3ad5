(** Proofs about parsed units: C21, C34. *)
From Verif Require Import Base Text_Model Text_Spec Text_Proofs Text_Proofs2 Text_Proofs3 Api_Model Api_Proofs Api_Proofs3 Writer_Model Writer_Spec Writer_Proofs Writer_Proofs2 Writer_Proofs3 Writer_Proofs4 Writer_Proofs5 Writer_Proofs6 Writer_Proofs7.
Local Open Scope N_scope.

Lemma clean_process : forall s, clean s -> clean (process_text s).
Proof.
  intros s H. unfold process_text. destruct (strpbrk_special s); [|exact H].
  induction H as [|c s C H IH]; [constructor|]. cbn [flat_map]. apply clean_app. split; [|exact IH].
  unfold esc_char. repeat match goal with |- context [if ?b then _ else _] => destruct b end; try clean_lit. constructor; [exact C|constructor].
Qed.
Lemma clean_prefixed : forall p n, clean p -> clean n -> clean (prefixed p n).
Proof. intros [|c p] n P N; [exact N|]. unfold prefixed. rewrite !clean_app. repeat split; [exact P|clean_lit|exact N]. Qed.
Lemma clean_good_attrs : forall al, Forall (fun a : bytes * bytes => fst a <> [] /\ clean (fst a) /\ clean (snd a)) al -> clean (attrs al).
Proof. intros al H. apply clean_attrs. eapply Forall_impl; [|exact H]. intros p (_ & A & B). split; assumption. Qed.
Lemma clean_tree : forall pre t, (forall i, clean (pre i)) -> good_tree t -> clean (tree_xml pre t).
Proof.
  intros pre t P. induction t as [s|i n al|i n al p kids IH] using tree_rect2; intros G.
  - apply clean_process, G.
  - destruct G as (N & CN & GA). cbn [tree_xml]. rewrite !clean_app. repeat split; [clean_lit|apply clean_prefixed; [apply P|exact CN]|apply clean_good_attrs, GA|clean_lit].
  - apply good_elem in G as (N & CN & GA & CP & GK).
    assert (K : clean (flat_map (tree_xml pre) kids)).
    { clear -IH GK. induction kids as [|k ks IHk]; [constructor|]. inversion IH; subst. inversion GK; subst. cbn [flat_map]. rewrite clean_app. auto. }
    pose proof (clean_prefixed _ _ (P i) CN) as Q. change (tree_xml pre (TreeElem i n al p kids)) with
      ([60] ++ prefixed (pre i) n ++ attrs al ++ p ++ match kids with [] => txt "/>" | _ => [62] ++ flat_map (tree_xml pre) kids ++ txt "</" ++ prefixed (pre i) n ++ [62] end).
    rewrite !clean_app. split; [clean_lit|]. split; [exact Q|]. split; [apply clean_good_attrs, GA|]. split; [exact CP|].
    destruct kids; [clean_lit|]. rewrite !clean_app. repeat split; [clean_lit|exact K|clean_lit|exact Q|clean_lit].
Qed.
Lemma clean_forest : forall pre ts, (forall i, clean (pre i)) -> Forall good_tree ts -> clean (flat_map (tree_xml pre) ts).
Proof. intros pre ts P. induction 1 as [|t ts G H IH]; [constructor|]. cbn [flat_map]. rewrite clean_app. split; [apply clean_tree; assumption|exact IH]. Qed.

(** the prefixes of the standard namespaces are kept when the tag is redone *)
Lemma default_nodup : NoDup (map ns_uri default_namespaces).
Proof. unfold default_namespaces. cbn [map ns_uri]. repeat (apply NoDup_cons; [vm_compute; intuition discriminate|]). apply NoDup_nil. Qed.
Lemma find_nth : forall l i n, NoDup (map ns_uri l) -> nth_error l i = Some n -> find_uri l (ns_uri n) = Some n.
Proof.
  induction l as [|m l IH]; intros [|i] n ND E; try discriminate; cbn [nth_error map find_uri] in *; inversion ND as [|x y NI ND']; subst.
  - injection E as ->. rewrite beqb_refl. reflexivity.
  - destruct (beqb (ns_uri m) (ns_uri n)) eqn:B; [|apply (IH i); assumption]. exfalso. apply NI. apply beqb_true in B. rewrite B. apply in_map. eapply nth_error_In, E.
Qed.
Lemma merged_nth : forall l i d, nth_error default_namespaces i = Some d ->
  exists n, nth_error (merge default_namespaces l) i = Some n /\ ns_uri n = ns_uri d /\ find_uri (merge default_namespaces l) (ns_uri d) = Some n.
Proof.
  intros l i d E. pose proof (merge_uris l default_namespaces) as U.
  assert (N : nth_error (map ns_uri (merge default_namespaces l)) i = Some (ns_uri d)).
  { rewrite U. rewrite nth_error_app1; [|apply nth_error_Some; rewrite nth_error_map, E; discriminate]. rewrite nth_error_map, E. reflexivity. }
  rewrite nth_error_map in N. destruct (nth_error (merge default_namespaces l) i) as [n|] eqn:En; [|discriminate].
  injection N as N. exists n. split; [reflexivity|]. split; [exact N|]. rewrite <- N. apply (find_nth _ i); [apply merge_nodup, default_nodup|exact En].
Qed.
Lemma remerged : forall l l' i d, same_names l' (merge default_namespaces l) -> nth_error default_namespaces i = Some d ->
  exists n m, nth_error l' i = Some n /\ nth_error (merge default_namespaces l') i = Some m /\ ns_prefix m = ns_prefix n /\ ns_uri m = ns_uri n /\
    subflags (ns_flags d) (ns_flags m) /\ subflags (ns_flags n) (ns_flags m).
Proof.
  intros l l' i d H D.
  assert (ND : NoDup (map ns_uri l')) by (rewrite (uris_names _ _ H); apply merge_nodup, default_nodup).
  destruct (merged_nth l i d D) as (n0 & E0 & U0 & _).
  assert (X : exists n, nth_error l' i = Some n /\ ns_prefix n = ns_prefix n0 /\ ns_uri n = ns_uri n0).
  { unfold same_names in H. apply (f_equal (fun l => nth_error l i)) in H. rewrite !nth_error_map, E0 in H.
    destruct (nth_error l' i) as [n|]; [|discriminate]. cbn [option_map] in H. injection H as H1 H2. eauto. }
  destruct X as (n & En & Pn & Un). rewrite U0 in Un.
  destruct (merged_nth l' i d D) as (m & Em & Um & Fm). exists n, m. split; [exact En|]. split; [exact Em|].
  rewrite merge_find in Fm. rewrite <- Un in Fm at 1. rewrite (same_nodup l' (ns_uri n) n ND (find_nth _ _ _ ND En)) in Fm.
  rewrite (find_nth _ _ _ default_nodup D) in Fm. cbn [fold_left] in Fm. unfold st in Fm. rewrite Un, (find_nth _ _ _ default_nodup D), beqb_refl in Fm.
  injection Fm as <-. cbn [ns_prefix ns_uri ns_flags]. repeat split; [congruence|apply sub_l|apply sub_r].
Qed.
Lemma prefix_again : forall l l' i, same_names l' (merge default_namespaces l) -> (i < 5)%nat ->
  prefix_at i (merge default_namespaces l') = prefix_at i (merge default_namespaces l).
Proof.
  intros l l' i H L. destruct (nth_error default_namespaces i) as [d|] eqn:D; [|apply nth_error_None in D; cbn in D; lia].
  destruct (remerged l l' i d H D) as (n & m & E1 & E2 & P & _). rewrite <- (prefix_names i l' (merge default_namespaces l) H).
  unfold prefix_at. rewrite E1, E2. exact P.
Qed.

Lemma grows_use : forall b u l, grows l (use_uri b u l).
Proof.
  intros b u l. unfold use_uri. destruct b; [|apply grows_refl]. induction l as [|n l IH]; [constructor|]. cbn [modify_uri].
  destruct (beqb (ns_uri n) u); constructor; try apply grows_refl; try assumption; repeat split; try apply sub_l; try apply sub_refl.
  apply use_bits.
Qed.
Lemma grows_options : forall o l, grows l (mark_options o l).
Proof. intros. unfold mark_options. eapply grows_trans; [apply grows_use|]. eapply grows_trans; apply grows_use. Qed.
(** a start tag only adds flags *)
Lemma on_w_ns : forall o f, so_ns (on_w o f) = so_ns o.
Proof. intros o f. unfold on_w. destruct (so_w o); reflexivity. Qed.
Lemma start_unit_grows : forall o g, grows (so_ns o) (so_ns (start_unit o g)).
Proof.
  intros o g. unfold start_unit. cbv zeta. cbn [so_ns].
  set (o1 := with_ns o (mark SRC (so_ns o))). assert (G1 : grows (so_ns o) (so_ns o1)) by apply grows_mark.
  set (o2 := on_w o1 _). assert (G2 : so_ns o2 = so_ns o1) by apply on_w_ns.
  set (o3 := if opt (so_options o2) B_NAMESPACE_DECL then _ else o2).
  assert (G3 : grows (so_ns o2) (so_ns o3)).
  { unfold o3. destruct (opt (so_options o2) B_NAMESPACE_DECL); [|apply grows_refl]. rewrite on_w_ns. apply grows_options. }
  set (o4 := if opt (so_options o3) B_POSITION then _ else o3).
  assert (G4 : grows (so_ns o3) (so_ns o4)).
  { unfold o4. destruct (opt (so_options o3) B_POSITION); [|apply grows_refl]. apply grows_mark. }
  set (o5 := on_w o4 _). assert (G5 : so_ns o5 = so_ns o4) by apply on_w_ns.
  set (o6 := if g_macros g then _ else o5). assert (G6 : so_ns o6 = so_ns o5) by (unfold o6; destruct (g_macros g); [apply on_w_ns|reflexivity]).
  rewrite G6, G5. eapply grows_trans; [exact G1|]. rewrite <- G2. eapply grows_trans; eassumption.
Qed.
Lemma start_grows : forall a u v t, write_start_unit a u = Ok (ST_OK, WUnitObj v (Some t)) -> grows (so_ns (unit_out a (wu u))) (so_ns (t_out t)).
Proof.
  intros a u v t H. unfold write_start_unit in H. cbv zeta in H.
  destruct (insert_range _) as [ins|]; [|discriminate H]. cbn [obind] in H. injection H as _ <-. cbn [t_out]. apply start_unit_grows.
Qed.

Lemma parse_ok_all : forall extract a u lang encoding hash ts,
  let u0 := set_parse_start (wu u) lang (a_url a) encoding in
  let pre := fun i => prefix_at i (so_ns (unit_out a u0)) in
  usable a u0 -> clean_opt hash -> Forall good_tree ts ->
  exists v, parse_unit extract a u lang encoding hash (flat_map tokens_of ts) = Ok (ST_OK, v) /\
    uo_srcml (wu v) = unit_xml (unit_tag a (wu v)) (unit_element a (wu v)) (forest_content pre ts) /\
    uo_content (wu v) = (Z.of_nat (length (unit_tag a (wu v))) + 1,
                         Z.of_nat (length (unit_tag a (wu v))) + 1 + match ts with [] => 0 | _ => 1 + Z.of_nat (length (flat_map (tree_xml pre) ts)) end)%Z /\
    uo_insert (wu v) = insert_of a (wu v) /\ uo_read_body (wu v) = true /\
    same_settings (set_reader_result u0 hash encoding) (wu v) /\ usable a (wu v) /\
    (exists l, uo_namespaces (wu v) = Some l /\ grows (merge default_namespaces (unit_namespaces a u0)) l /\
       forall i, any_uses i ts -> (i < 5)%nat -> used_at i l) /\
    uo_raw (wu v) = uo_raw (wu u) /\ uo_fragment (wu v) = uo_fragment (wu u) /\
    uo_src (wu v) = Some (match uo_src (wu u) with Some s => s | None => extract (uo_srcml (wu v)) end) /\
    uo_loc (wu v) = Z.of_nat (loc_written (match uo_src (wu u) with Some s => s | None => extract (uo_srcml (wu v)) end)).
Proof.
  intros extract a u lang encoding hash ts u0 pre U H G. pose proof U as (D & PO & CU).
  unfold parse_unit. fold u0. set (ua := WUnitObj u0 (wu_trans u)).
  destruct (start_unit_object a ua D PO) as (t & E1 & T & W & NS). change (wu ua) with u0 in *. rewrite E1. cbn [obind snd wu wu_trans].
  assert (PR : forall i, prefix_at i (so_ns (t_out t)) = pre i) by (intros i; apply prefix_names, NS).
  destruct (tokens_ok pre ts G (t_out t) _ [unit_element a u0] W eq_refl eq_refl PR) as (l & GR & US & F). rewrite F.
  set (t2 := with_out t _). set (u1 := set_namespaces _ _).
  assert (LN : same_names l (merge default_namespaces (unit_namespaces a u0))).
  { rewrite <- unit_out_ns. eapply names_trans; [apply grows_names, GR|exact NS]. }
  assert (LG : grows (merge default_namespaces (unit_namespaces a u0)) l).
  { rewrite <- unit_out_ns. eapply grows_trans; [exact (start_grows _ _ _ _ E1)|exact GR]. }
  assert (NL : uo_namespaces u1 = Some l) by reflexivity.
  assert (SP : prefix_at SRC (so_ns (unit_out a u1)) = prefix_at SRC (so_ns (unit_out a u0))).
  { rewrite !unit_out_ns. unfold unit_namespaces at 1. rewrite NL. apply src_prefix_again, LN. }
  assert (EL : unit_element a u1 = unit_element a u0) by (unfold unit_element; rewrite SP; reflexivity).
  assert (U1 : usable a u1).
  { split; [exact D|]. rewrite SP. split; [exact PO|]. destruct CU as (C0 & C1 & C2 & C3 & C4 & C5 & C6 & C7 & C8 & C9 & C10).
    split; [unfold unit_namespaces; rewrite NL; apply (clean_names _ _ LN), clean_merge; [apply clean_default|exact C0]|].
    repeat (split; try assumption). }
  set (kids := match ts with [] => [] | _ => [Chars (flat_map (tree_xml pre) ts)] end).
  assert (T2 : trans_at t2 (unit_tag a u0) (unit_element a u0) ([], kids)).
  { destruct T as (w0 & W0 & _ & O0 & D0). exists (text_written pre ts (Writer (unit_tag a u0) (Some [unit_element a u0]) true [])).
    split; [reflexivity|]. split; [|split; [exact O0|exact D0]]. unfold writes, text_written, kids, out_now, top_kids, in_tag, top_decls. cbn [fst snd].
    destruct ts as [|t0 ts']; cbn [map app]; [rewrite app_nil_r; reflexivity|]. unfold close_tag. cbn [w_intag w_out w_nodes w_ns attrs]. f_equal.
    unfold out_closed, xml_all. cbn [flat_map xml]. rewrite app_nil_r, <- !app_assoc. reflexivity. }
  assert (CK : clean (xml_all (contents ([], kids)))).
  { apply clean_contents. split; [constructor|]. cbn [snd]. unfold kids, xml_all. destruct ts as [|t0 ts']; [constructor|]. cbn [flat_map xml]. rewrite app_nil_r.
    apply (clean_forest pre (t0 :: ts')); [|exact G]. intros i. unfold pre. apply clean_prefix_at. rewrite unit_out_ns. apply clean_merge; [apply clean_default|apply CU]. }
  assert (CN : contents ([], kids) = kids) by (unfold contents; cbn [fst snd completed]; apply app_nil_r).
  destruct (end_unit_object extract a (WUnitObj u1 (Some t2)) t2 _ _ _ eq_refl T2 eq_refl U1 CK (clean_element _ _ U))
    as (v & E3 & T3 & S3 & C3 & I3 & B3 & SS & NN & X1 & X2 & X3 & X4). rewrite CN in *. cbn [wu] in *.
  assert (NV : unit_namespaces a (wu v) = unit_namespaces a u1) by (unfold unit_namespaces; rewrite NN; reflexivity).
  assert (OV : unit_out a (wu v) = unit_out a u1) by (unfold unit_out; rewrite NV; reflexivity).
  destruct SS as (Q1 & Q2 & Q3 & Q4 & Q5 & Q6).
  assert (TV : unit_tag a (wu v) = unit_tag a u1).
  { unfold unit_tag, start_args. rewrite OV, Q2, Q3, Q4, Q5. reflexivity. }
  exists v. split; [exact E3|]. rewrite TV. split.
  { rewrite S3. unfold unit_element at 2. rewrite OV. fold (unit_element a u1). rewrite EL. f_equal.
    unfold kids, content_of, forest_content, xml_all. destruct ts; [reflexivity|]. cbn [flat_map xml]. rewrite app_nil_r. reflexivity. }
  split.
  { rewrite C3. f_equal. f_equal. unfold kids, xml_all. destruct ts; [reflexivity|]. cbn [flat_map xml]. rewrite app_nil_r. reflexivity. }
  split.
  { rewrite I3. unfold insert_of, src_decl. rewrite OV. reflexivity. }
  split; [exact B3|]. split; [repeat split; assumption|]. split.
  { destruct U1 as (A1 & A2 & A3). split; [exact A1|]. rewrite OV. split; [exact A2|]. unfold clean_unit in *. rewrite NV, Q2, Q3, Q4, Q5. exact A3. }
  split; [|split; [exact X1|split; [exact X2|split; [exact X3|exact X4]]]].
  exists l. split; [rewrite NN; unfold unit_namespaces; rewrite NL; reflexivity|]. split; [exact LG|].
  intros i UI LI. apply US; [exact UI|]. rewrite (eq_trans (eq_sym (map_length (fun n => (ns_prefix n, ns_uri n)) _)) (eq_trans (f_equal (@length _) NS) (map_length _ _))).
  rewrite unit_out_ns. rewrite <- (map_length ns_uri). rewrite merge_uris, app_length, map_length. cbn [length default_namespaces]. lia.
Qed.
Lemma parse_ok : forall extract a u lang encoding hash ts,
  let u0 := set_parse_start (wu u) lang (a_url a) encoding in
  let pre := fun i => prefix_at i (so_ns (unit_out a u0)) in
  usable a u0 -> clean_opt hash -> Forall good_tree ts ->
  exists v, parse_unit extract a u lang encoding hash (flat_map tokens_of ts) = Ok (ST_OK, v) /\
    uo_srcml (wu v) = unit_xml (unit_tag a (wu v)) (unit_element a (wu v)) (forest_content pre ts) /\
    uo_content (wu v) = (Z.of_nat (length (unit_tag a (wu v))) + 1,
                         Z.of_nat (length (unit_tag a (wu v))) + 1 + match ts with [] => 0 | _ => 1 + Z.of_nat (length (flat_map (tree_xml pre) ts)) end)%Z /\
    uo_insert (wu v) = insert_of a (wu v) /\ uo_read_body (wu v) = true /\
    same_settings (set_reader_result u0 hash encoding) (wu v) /\ usable a (wu v) /\
    (exists l, uo_namespaces (wu v) = Some l /\ grows (merge default_namespaces (unit_namespaces a u0)) l /\
       forall i, any_uses i ts -> (i < 5)%nat -> used_at i l).
Proof.
  intros extract a u lang encoding hash ts u0 pre U H G.
  destruct (parse_ok_all extract a u lang encoding hash ts U H G) as (v & A1 & A2 & A3 & A4 & A5 & A6 & A7 & A8 & _).
  exists v. repeat (split; [assumption|]). exact A8.
Qed.
