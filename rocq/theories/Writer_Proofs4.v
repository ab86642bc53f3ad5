(** Proofs about complete units: C21 and C22. *)
From Verif Require Import Base Text_Model Text_Spec Text_Proofs Text_Proofs2 Text_Proofs3 Api_Model Api_Proofs Api_Proofs3 Writer_Model Writer_Spec Writer_Proofs Writer_Proofs2 Writer_Proofs3.
Local Open Scope N_scope.

Lemma clear_decl : forall o, opt (clear_archive o) B_NAMESPACE_DECL = opt o B_NAMESPACE_DECL.
Proof. intros o. unfold opt, clear_archive, B_NAMESPACE_DECL, OPT_ARCHIVE. rewrite N.ldiff_spec, pow2_bit. cbn. apply andb_true_r. Qed.

Definition insert_of (a : archive) (u : uobj) : Z * Z :=
  let p := prefix_at SRC (so_ns (unit_out a u)) in
  (Z.of_nat (length ([60%N] ++ prefixed p (txt "unit"))) + 1,
   Z.of_nat (length ([60%N] ++ prefixed p (txt "unit") ++ attr (src_decl a u))) + 1)%Z.
Lemma start_unit_object : forall a u, opt (a_options a) B_NAMESPACE_DECL = true -> prefix_ok (prefix_at SRC (so_ns (unit_out a (wu u)))) ->
  exists t, write_start_unit a u = Ok (ST_OK, WUnitObj (set_content (wu u) (Some (unit_namespaces a (wu u))) (uo_srcml (wu u)) (uo_read_body (wu u)) (uo_src (wu u))
      (Z.of_nat (length (unit_tag a (wu u))) + 1, snd (uo_content (wu u)))%Z (insert_of a (wu u)) (uo_loc (wu u))) (Some t)) /\
    trans_at t (unit_tag a (wu u)) (unit_element a (wu u)) ([], []) /\
    so_w (t_out t) = Some (Writer (unit_tag a (wu u)) (Some [unit_element a (wu u)]) true []) /\
    same_names (so_ns (t_out t)) (so_ns (unit_out a (wu u))).
Proof.
  intros a u D P. unfold write_start_unit. set (uo := wu u) in *. fold (unit_namespaces a uo).
  set (t0 := new_trans _ _ _ _ _ _ _ _ _ _ _).
  assert (T0 : t_out t0 = unit_out a uo) by reflexivity.
  assert (W0 : so_w (unit_out a uo) = Some new_writer) by reflexivity.
  destruct (start_unit_ok (unit_out a uo) (start_args a uo (uo_revision uo)) new_writer [] W0 eq_refl) as (ns' & N' & E).
  set (t1 := Trans _ _ _ _ _ _ _ _ _).
  assert (E1 : t_out t1 = after_tag (unit_out a uo) (Writer (unit_tag a uo) (Some [unit_element a uo]) true []) ns') by exact E.
  assert (O1 : trans_out t1 = unit_tag a uo) by (unfold trans_out; rewrite E1; reflexivity).
  rewrite O1.
  assert (I : insert_range (unit_tag a uo) = Ok (insert_of a uo)).
  { unfold unit_tag, start_tag. destruct (tag_first a uo (start_args a uo (uo_revision uo))) as (rest & ->); [rewrite clear_decl; exact D|].
    pose proof (insert_ok _ rest P) as G. unfold insert_of, src_decl. destruct (prefix_at SRC (so_ns (unit_out a uo))); exact G. }
  rewrite I. cbn [obind]. exists t1. split; [reflexivity|].
  assert (W1 : so_w (t_out t1) = Some (Writer (unit_tag a uo) (Some [unit_element a uo]) true [])) by (rewrite E1; reflexivity).
  split; [|split; [exact W1|rewrite E1; exact N']].
  exists (Writer (unit_tag a uo) (Some [unit_element a uo]) true []). split; [exact W1|]. split; [|split; reflexivity].
  unfold writes. cbn. rewrite app_nil_r. reflexivity.
Qed.

(** ** Clean tags *)
Lemma clean_merge1 : forall l n, Forall clean_ns l -> clean_ns n -> Forall clean_ns (merge1 l n).
Proof.
  intros l n L N. assert (M : forall f, (forall t, clean_ns t -> clean_ns (f t)) -> Forall clean_ns (modify_uri l (ns_uri n) f)).
  { intros f F. induction L as [|m l M L IH]; [constructor|]. cbn [modify_uri]. destruct (beqb (ns_uri m) (ns_uri n)); constructor; auto. }
  unfold merge1. destruct (find_uri l (ns_uri n)) as [c|].
  - destruct (find_uri default_namespaces (ns_uri n)); [destruct (beqb _ _)|]; try assumption; apply M; intros t [T1 T2]; (split; [apply N|exact T2]).
  - apply Forall_app. split; [exact L|]. constructor; [exact N|constructor].
Qed.
Lemma clean_merge : forall o l, Forall clean_ns l -> Forall clean_ns o -> Forall clean_ns (merge l o).
Proof.
  induction o as [|n o IH]; intros l L O; [exact L|]. inversion O; subst. cbn [merge fold_left]. fold (merge (merge1 l n) o).
  apply IH; [apply clean_merge1; assumption|assumption].
Qed.
Ltac clean_lit := unfold clean, no_byte; vm_compute; repeat constructor; discriminate.
Lemma clean_default : Forall clean_ns default_namespaces.
Proof. unfold default_namespaces. repeat (constructor; [split; cbn [ns_prefix ns_uri]; clean_lit|]). constructor. Qed.
Lemma clean_names : forall l l', same_names l l' -> Forall clean_ns l' -> Forall clean_ns l.
Proof.
  unfold same_names. induction l as [|n l IH]; intros [|m l'] H C; try discriminate; [constructor|]. cbn [map] in H. injection H as H1 H2 H3.
  inversion C as [|x y [C1 C2] C3]; subst. constructor; [split; [rewrite H1|rewrite H2]; assumption|apply (IH l'); assumption].
Qed.
Lemma clean_ns_attr : forall n, clean_ns n -> clean_pair (ns_attr n).
Proof.
  intros n [C1 C2]. unfold clean_pair, ns_attr. cbn [fst snd]. split; [|exact C2]. destruct (ns_prefix n) as [|c p]; [clean_lit|].
  apply no_byte_app. split; [clean_lit|exact C1].
Qed.
Lemma clean_given : forall n v, clean n -> clean_opt v -> Forall clean_pair (given n v).
Proof. intros n [v|] H1 H2; constructor; [split; assumption|constructor]. Qed.
Lemma clean_pairs_of : forall l, Forall clean l -> Forall clean_pair (pairs_of l).
Proof.
  intros l H. assert (X : forall k l, (length l <= k)%nat -> Forall clean l -> Forall clean_pair (pairs_of l)).
  { clear. induction k as [|k IH]; intros [|a [|b t]] L H; cbn [pairs_of length] in *; try constructor; try lia.
    - inversion H as [|x y A H2]; subst; inversion H2 as [|x2 y2 B H3]; subst. split; assumption.
    - inversion H as [|x y A H2]; subst; inversion H2 as [|x2 y2 B H3]; subst. apply IH; [lia|exact H3]. }
  apply (X (length l)); [lia|exact H].
Qed.
Lemma clean_filter : forall f l, Forall clean_pair l -> Forall clean_pair (filter f l).
Proof. intros f l H. rewrite Forall_forall in *. intros x I. apply filter_In in I. apply H, I. Qed.
Definition dec_go := fix go (f : nat) (n : N) (acc : bytes) : bytes :=
       match f with O => acc | S f => if n =? 0 then acc else go f (n / 10) (48 + n mod 10 :: acc) end.
Lemma clean_dec : forall n, clean (dec_of n).
Proof.
  intros n. assert (X : forall f n acc, clean acc -> clean (dec_go f n acc)).
  { clear. induction f as [|f IH]; intros n acc H; [exact H|]. cbn [dec_go]. destruct (n =? 0); [exact H|]. apply IH. constructor; [|exact H].
    rewrite N.add_comm. destruct (n mod 10); discriminate. }
  unfold dec_of. destruct n; [clean_lit|]. exact (X 64%nat (N.pos p) [] (Forall_nil _)).
Qed.
Lemma clean_stored : forall o, clean (stored_options o).
Proof. intros o. unfold stored_options. destruct (opt o B_CPP_TEXT_ELSE), (opt o B_CPP_MARKUP_IF0), (opt o B_LINE); clean_lit. Qed.
Lemma clean_prefix_at : forall i l, Forall clean_ns l -> clean (prefix_at i l).
Proof.
  intros i l H. unfold prefix_at. destruct (nth_error l i) as [n|] eqn:E; [|constructor]. apply nth_error_In in E.
  rewrite Forall_forall in H. apply (H _ E).
Qed.
Definition clean_args (g : tag_args) : Prop :=
  clean_opt (g_language g) /\ clean_opt (g_revision g) /\ clean_opt (g_url g) /\ clean_opt (g_filename g) /\ clean_opt (g_version g) /\
  clean_opt (g_timestamp g) /\ clean_opt (g_hash g) /\ clean_opt (g_encoding g) /\ Forall clean (g_attributes g).
Lemma clean_start_tag : forall o g, Forall clean_ns (so_ns o) -> clean (so_tabs o) -> clean_args g -> clean (start_tag o g).
Proof.
  intros o g N T (G1 & G2 & G3 & G4 & G5 & G6 & G7 & G8 & G9). unfold start_tag. unfold clean. rewrite !no_byte_app.
  split; [clean_lit|]. split.
  - pose proof (clean_prefix_at SRC _ N) as P. unfold prefixed. destruct (prefix_at SRC (so_ns o)); [clean_lit|].
    rewrite !no_byte_app. repeat split; [exact P|clean_lit|clean_lit].
  - apply clean_attrs. unfold tag_attrs. apply Forall_app. split.
    + destruct (opt (so_options o) B_NAMESPACE_DECL); [|constructor]. rewrite Forall_map. rewrite Forall_forall. intros n I. apply filter_In in I as [I _].
      apply clean_ns_attr. assert (C : Forall clean_ns (ns_now o)).
      { apply (clean_names _ (so_ns o)); [|exact N]. unfold ns_now. eapply names_trans; [apply options_names|apply mark_names]. }
      rewrite Forall_forall in C. apply C, I.
    + apply clean_filter. unfold unit_attrs. rewrite !Forall_app. repeat split; try (apply clean_given; [clean_lit|assumption]).
      * destruct (opt (so_options o) B_POSITION); [|constructor]. constructor; [|constructor]. split; cbn [fst snd]; [|exact T].
        pose proof (clean_prefix_at POS _ N) as P. destruct (prefix_at POS (so_ns o)); [clean_lit|]. apply no_byte_app. split; [exact P|clean_lit].
      * destruct (opt (so_options o) B_STORE_ENCODING); [|constructor]. constructor; [|constructor]. split; cbn [fst snd]; [clean_lit|].
        destruct (g_encoding g) as [[|c e]|]; [clean_lit|exact G8|clean_lit].
      * destruct (so_depth o =? 0); [|constructor]. pose proof (clean_stored (so_options o)) as S. destruct (stored_options (so_options o)); [constructor|].
        constructor; [|constructor]. split; cbn [fst snd]; [clean_lit|exact S].
      * apply clean_pairs_of, G9.
Qed.
Lemma clean_unit_tag : forall a u, clean_unit a u -> clean (unit_tag a u).
Proof.
  intros a u (C0 & C1 & C2 & C3 & C4 & C5 & C6 & C7 & C8 & C9 & C10). apply clean_start_tag.
  - rewrite unit_out_ns. apply clean_merge; [apply clean_default|exact C0].
  - apply clean_dec.
  - unfold clean_args, start_args. cbn [g_language g_revision g_url g_filename g_version g_timestamp g_hash g_encoding g_attributes].
    repeat split; try assumption. destruct (u_language (uo_settings u)); assumption.
Qed.

(** ** The end of a unit *)
Lemma clean_id : forall s, clean s -> upto_nul s = s. Proof. exact upto_nul_id. Qed.
Lemma end_unit_object : forall extract a u t tag q b, wu_trans u = Some t -> trans_at t tag q b ->
  fst (uo_content (wu u)) = (Z.of_nat (length tag) + 1)%Z -> usable a (wu u) -> clean (xml_all (contents b)) -> clean q ->
  exists u', write_end_unit extract a u = Ok (ST_OK, u') /\ wu_trans u' = None /\
    uo_srcml (wu u') = unit_xml (unit_tag a (wu u)) q (content_of (contents b)) /\
    uo_content (wu u') = (Z.of_nat (length (unit_tag a (wu u))) + 1,
                          Z.of_nat (length (unit_tag a (wu u))) + 1 + match contents b with [] => 0 | _ => 1 + Z.of_nat (length (xml_all (contents b))) end)%Z /\
    uo_insert (wu u') = insert_of a (wu u) /\ uo_read_body (wu u') = true /\ same_settings (wu u) (wu u') /\
    uo_namespaces (wu u') = Some (unit_namespaces a (wu u)) /\ uo_raw (wu u') = uo_raw (wu u) /\ uo_fragment (wu u') = uo_fragment (wu u) /\
    uo_src (wu u') = Some (match uo_src (wu u) with Some s => s | None => extract (uo_srcml (wu u')) end) /\
    uo_loc (wu u') = Z.of_nat (loc_written (match uo_src (wu u) with Some s => s | None => extract (uo_srcml (wu u')) end)).
Proof.
  intros extract a u t tag q b U T CB (D & P & CU) CX CQ. unfold write_end_unit. rewrite U.
  pose proof T as (w & Hw & W & O & Dp). rewrite Dp. destruct (Z.of_nat (length (fst b)) <? 0)%Z eqn:NEG; [apply Z.ltb_lt in NEG; lia|].
  rewrite Nat2Z.id. destruct (end_elements_ok tag q _ b t eq_refl T) as [T1 N1].
  set (t1 := end_elements (length (fst b)) t) in *. set (kids := contents b) in *.
  destruct T1 as (w1 & Hw1 & W1 & O1 & Dp1).
  assert (OUT : trans_out t1 = tag ++ match kids with [] => [] | _ => [62] ++ xml_all kids end).
  { unfold trans_out. rewrite Hw1, W1. cbn [w_out]. unfold out_now, top_kids. cbn [fst snd]. destruct kids; reflexivity. }
  rewrite OUT. unfold add_end_unit. rewrite O1. cbn [fst length] in Dp1. rewrite Dp1. cbn [Z.of_nat Z.to_nat end_elements].
  unfold result_w. rewrite Hw1.
  set (w2 := match kids with [] => Writer (tag ++ txt "/>") (Some []) false [] | _ => Writer (tag ++ [62] ++ xml_all kids ++ txt "</" ++ q ++ [62]) (Some []) false [] end).
  assert (E2 : end_element w1 = (w2, true)).
  { rewrite W1. unfold end_element, out_now, top_kids, in_tag, top_decls, w2. cbn [fst snd w_nodes map app]. unfold top_kids. cbn [fst snd].
    destruct kids as [|k l]; cbn [w_intag w_out w_ns attrs flat_map app out_closed]; rewrite <- ?app_assoc; reflexivity. }
  rewrite E2. cbn [fst snd negb].
  match goal with |- context [write_start_unit a ?x] => set (u1 := x) end.
  assert (T1' : unit_tag a (wu u1) = unit_tag a (wu u)) by reflexivity.
  assert (I1' : insert_of a (wu u1) = insert_of a (wu u)) by reflexivity.
  destruct (start_unit_object a u1 D P) as (t2 & E3 & _ & W3 & _). rewrite E3. cbn [obind snd wu_trans wu].
  rewrite T1', I1'. clear E3.
  assert (O3 : trans_out t2 = unit_tag a (wu u)) by (unfold trans_out; rewrite W3, T1'; reflexivity). rewrite O3.
  rewrite (clean_id _ (clean_unit_tag _ _ CU)).
  match goal with |- context [trans_out ?x] => set (t3 := x) end.
  assert (O4 : trans_out t3 = w_out w2) by reflexivity. rewrite O4. rewrite CB.
  set (n := length (unit_tag a (wu u))).
  set (doc := unit_xml (unit_tag a (wu u)) q (content_of kids)).
  match goal with |- context [WUnitObj (set_content _ _ ?d _ _ _ _ _) None] => assert (DOC : d = doc) end.
  { unfold doc, unit_xml, content_of, w2. destruct kids as [|k l].
    - rewrite app_nil_r, Z.eqb_refl. reflexivity.
    - match goal with |- context [(?x =? ?y)%Z] => destruct (x =? y)%Z eqn:B end.
      { apply Z.eqb_eq in B. rewrite !app_length in B. cbn [length] in B. lia. }
      cbn [w_out].
      replace (tag ++ [62] ++ xml_all (k :: l) ++ txt "</" ++ q ++ [62]) with ((tag ++ [62]) ++ xml_all (k :: l) ++ txt "</" ++ q ++ [62]) by (rewrite <- app_assoc; reflexivity).
      replace (Z.to_nat (Z.of_nat (length tag) + 1)) with (length (tag ++ [62%N]) + 0)%nat by (rewrite app_length; cbn [length]; lia).
      rewrite skipn_len. cbn [skipn]. rewrite clean_id; [reflexivity|].
      unfold clean. rewrite !no_byte_app. repeat split; [exact CX|clean_lit|exact CQ|clean_lit]. }
  rewrite DOC. eexists. split; [reflexivity|]. cbn [wu wu_trans].
  cbn [set_content uo_srcml uo_content uo_insert uo_read_body uo_namespaces uo_raw uo_fragment uo_src uo_loc fst snd wu u1].
  split; [reflexivity|]. split; [reflexivity|]. split.
  { f_equal. rewrite app_length. destruct kids; cbn [length]; rewrite ?app_length; cbn [length]; lia. }
  split; [reflexivity|]. split; [reflexivity|]. split; [repeat split|]. split; [reflexivity|].
  split; [reflexivity|]. split; [reflexivity|]. split; reflexivity.
Qed.
