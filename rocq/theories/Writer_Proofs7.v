(** Proofs about parser tokens written into a unit: C21, C34. *)
From Verif Require Import Base Text_Model Text_Spec Text_Proofs Text_Proofs2 Text_Proofs3 Api_Model Api_Proofs Api_Proofs3 Writer_Model Writer_Spec Writer_Proofs Writer_Proofs2 Writer_Proofs3 Writer_Proofs4 Writer_Proofs5 Writer_Proofs6.
Local Open Scope N_scope.

Definition tree_rect2 (P : tree -> Prop) (PT : forall s, P (TreeText s)) (PE : forall i n al, P (TreeEmpty i n al))
    (PN : forall i n al p kids, Forall P kids -> P (TreeElem i n al p kids)) : forall t, P t :=
  fix go (t : tree) : P t :=
    match t with
    | TreeText s => PT s
    | TreeEmpty i n al => PE i n al
    | TreeElem i n al p kids => PN i n al p kids ((fix all l : Forall P l := match l with [] => Forall_nil _ | t :: l => Forall_cons _ (go t) (all l) end) kids)
    end.

Lemma uses_elem : forall i j n al p kids, uses i (TreeElem j n al p kids) <-> i = j \/ any_uses i kids.
Proof. intros. cbn [uses]. induction kids as [|k kids IH]; [reflexivity|]. cbn [any_uses]. tauto. Qed.
Lemma good_elem : forall i n al p kids, good_tree (TreeElem i n al p kids) <->
  n <> [] /\ clean n /\ Forall (fun a => fst a <> [] /\ clean (fst a) /\ clean (snd a)) al /\ clean p /\ Forall good_tree kids.
Proof.
  intros. cbn [good_tree]. assert (E : (fix all l := match l with [] => True | t :: l => good_tree t /\ all l end) kids <-> Forall good_tree kids).
  { induction kids as [|k kids IH]; [split; [constructor|auto]|]. rewrite IH. split; [intros [A B]; constructor; assumption|intros H; inversion H; auto]. }
  rewrite E. tauto.
Qed.

Lemma use_bits : forall f k, k <> 2 -> N.testbit (N.lor f NS_USED) k = N.testbit f k.
Proof. intros f k K. rewrite N.lor_spec. change NS_USED with (2 ^ 2). rewrite pow2_bit. destruct (k =? 2) eqn:E; [apply N.eqb_eq in E; congruence|apply orb_false_r]. Qed.
(** namespaces only gain the flag for use *)
Definition grows1 (n m : ns) : Prop := ns_prefix m = ns_prefix n /\ ns_uri m = ns_uri n /\ subflags (ns_flags n) (ns_flags m) /\
  (forall k, k <> 2 -> N.testbit (ns_flags m) k = N.testbit (ns_flags n) k).
Definition grows (l l' : list ns) : Prop := Forall2 grows1 l l'.
Lemma grows_refl : forall l, grows l l. Proof. induction l; constructor; [repeat split; apply sub_refl|assumption]. Qed.
Lemma grows_trans : forall a b c, grows a b -> grows b c -> grows a c.
Proof.
  induction a as [|x a IH]; intros b c H1 H2; inversion H1; subst; inversion H2; subst; constructor; [|eapply IH; eassumption].
  repeat match goal with H : grows1 _ _ |- _ => destruct H as (? & ? & ? & ?) end. repeat split; [congruence|congruence|eapply sub_trans; eassumption|].
  intros k K. etransitivity; [eauto|eauto].
Qed.
Lemma grows_names : forall a b, grows a b -> same_names b a.
Proof. unfold same_names. induction 1 as [|x y a b (A & B & _) H IH]; [reflexivity|]. cbn [map]. rewrite A, B, IH. reflexivity. Qed.
Lemma grows_length : forall a b, grows a b -> length a = length b.
Proof. induction 1 as [|x y a b A B C]; cbn [length]; [reflexivity|]. rewrite C. reflexivity. Qed.
Lemma grows_mark : forall l i, grows l (mark i l).
Proof.
  induction l as [|n l IH]; intros [|i]; cbn [mark]; try constructor; try apply grows_refl; try apply IH.
  - repeat split; cbn [ns_flags]; [apply sub_l|]. apply use_bits.
  - repeat split. apply sub_refl.
Qed.
Lemma grows_nth : forall a b i n, grows a b -> nth_error a i = Some n -> exists m, nth_error b i = Some m /\ grows1 n m.
Proof.
  intros a b i n H. revert i. induction H as [|x y a b G H IH]; intros [|i] E; cbn [nth_error] in *; try discriminate.
  - injection E as <-. eauto.
  - apply IH, E.
Qed.
Definition used_at (i : nat) (l : list ns) : Prop := exists n, nth_error l i = Some n /\ subflags NS_USED (ns_flags n).
Lemma mark_used : forall l i, (i < length l)%nat -> used_at i (mark i l).
Proof.
  induction l as [|n l IH]; intros [|i] H; cbn [length mark] in *; try lia.
  - eexists. split; [reflexivity|]. cbn [ns_flags]. apply sub_r.
  - destruct (IH i) as (m & E & S); [lia|]. exists m. split; assumption.
Qed.
Lemma used_grows : forall a b i, grows a b -> used_at i a -> used_at i b.
Proof. intros a b i H (n & E & S). destruct (grows_nth _ _ _ _ H E) as (m & E2 & (_ & _ & S2 & _)). exists m. split; [exact E2|eapply sub_trans; eassumption]. Qed.

Lemma named_good : forall al, Forall (fun a : bytes * bytes => fst a <> [] /\ clean (fst a) /\ clean (snd a)) al -> named al = al.
Proof.
  induction 1 as [|[n v] al (N & _) H IH]; [reflexivity|]. unfold named in *. cbn [filter fst] in *. rewrite IH.
  destruct (beqb n []) eqn:B; [apply beqb_true in B; contradiction|reflexivity].
Qed.
(** ** Writing the tokens of trees *)
Definition put (o : sout) (w : writer) (l : list ns) : sout :=
  SOut (Some w) (so_depth o) (so_didwrite o) l (so_options o) (so_tabs o) (so_macros o) (so_pi o) (so_encoding o) (so_final o).
Definition text_written (pre : nat -> bytes) (ts : list tree) (w : writer) : writer :=
  match ts with [] => w | _ => Writer (w_out (close_tag w) ++ flat_map (tree_xml pre) ts) (w_nodes w) false [] end.
Lemma close_closed : forall x n, close_tag (Writer x n false []) = Writer x n false []. Proof. reflexivity. Qed.
Lemma close_empty_ns : forall w, w_ns w = [] -> w_ns (close_tag w) = [].
Proof. intros [o n i s] H. cbn in H. subst. unfold close_tag. cbn. destruct i; reflexivity. Qed.
Lemma text_written_cons : forall pre t ts w, text_written pre ts (text_written pre [t] w) = text_written pre (t :: ts) w.
Proof.
  intros pre t [|t2 ts] w; [reflexivity|]. unfold text_written. rewrite close_closed. cbn [w_out w_nodes flat_map]. rewrite app_nil_r, <- !app_assoc. reflexivity.
Qed.
Definition tok_ok (pre : nat -> bytes) (ts : list tree) : Prop := forall o w l,
  so_w o = Some w -> w_nodes w = Some l -> w_ns w = [] -> (forall i, prefix_at i (so_ns o) = pre i) ->
  exists ns', grows (so_ns o) ns' /\ (forall i, any_uses i ts -> (i < length (so_ns o))%nat -> used_at i ns') /\
    fold_left out_token (flat_map tokens_of ts) o = put o (text_written pre ts w) ns'.
Lemma tokens_list : forall pre ts, Forall good_tree ts -> Forall (fun t => good_tree t -> tok_ok pre [t]) ts -> tok_ok pre ts.
Proof.
  intros pre. induction ts as [|t ts IH]; intros G H o w l W L NS PR.
  - exists (so_ns o). split; [apply grows_refl|]. split; [intros i []|]. cbn. destruct o; cbn in *; subst. reflexivity.
  - inversion G as [|x y G1 G2]; subst. inversion H as [|x y H1 H2]; subst.
    destruct (H1 G1 o w l W L NS PR) as (n1 & E1 & U1 & F1). cbn [flat_map] in F1. rewrite app_nil_r in F1.
    cbn [flat_map]. rewrite fold_left_app, F1.
    destruct (IH G2 H2 (put o (text_written pre [t] w) n1) (text_written pre [t] w) l) as (n2 & E2 & U2 & F2); cbn [so_w so_ns put].
    + reflexivity.
    + exact L.
    + reflexivity.
    + intros i. rewrite <- PR. apply prefix_names, grows_names, E1.
    + exists n2. split; [eapply grows_trans; eassumption|]. split.
      * intros i [U|U] Li; [eapply used_grows; [exact E2|]; apply U1; [left; exact U|exact Li]|].
        apply U2; [exact U|]. cbn [put so_ns]. rewrite <- (grows_length _ _ E1). exact Li.
      * rewrite F2. rewrite text_written_cons. reflexivity.
Qed.
Lemma tokens_tree : forall pre t, good_tree t -> tok_ok pre [t].
Proof.
  intros pre t. induction t as [s|i n al|i n al p kids IH] using tree_rect2; intros G o w l W L NS PR.
  - exists (so_ns o). split; [apply grows_refl|]. split; [intros j [[]|[]]|]. cbn [flat_map tokens_of app fold_left out_token].
    unfold on_w. rewrite W. unfold write_raw. cbn [fst]. unfold text_written. cbn [flat_map tree_xml]. rewrite app_nil_r.
    unfold put, with_w. f_equal. f_equal. rewrite close_nodes, (close_empty_ns _ NS). f_equal. unfold close_tag. destruct (w_intag w) eqn:I; [reflexivity|exact I].
  - cbn [good_tree] in G. destruct G as (N & CN & GA).
    exists (mark i (so_ns o)). split; [apply grows_mark|]. split; [intros j [->|[]] Lj; apply mark_used, Lj|].
    cbn [flat_map tokens_of app fold_left out_token]. unfold on_w. cbn [with_ns so_w]. rewrite W.
    assert (TP : start_element_ns w (token_prefix o i) n None = (Writer (w_out (close_tag w) ++ [60] ++ prefixed (pre i) n) (Some (prefixed (pre i) n :: l)) true (w_ns (close_tag w)), true)).
    { unfold token_prefix. rewrite PR. pose proof (start_ns_prefixed w (pre i) n l N L) as SN. destruct (pre i); exact SN. }
    rewrite TP. cbn [fst]. rewrite add_attrs_ok by reflexivity. rewrite (named_good _ GA).
    unfold end_element. cbn [w_nodes w_intag w_out w_ns fst]. rewrite (close_empty_ns _ NS). cbn [attrs flat_map].
    unfold text_written. cbn [flat_map tree_xml]. unfold put, with_w, with_ns. cbn [so_depth so_didwrite so_options so_tabs so_macros so_pi so_encoding so_final so_ns].
    rewrite L, app_nil_r. f_equal. f_equal. f_equal. unfold attrs. rewrite <- !app_assoc. reflexivity.
  - apply good_elem in G as (N & CN & GA & CP & GK).
    assert (KO : tok_ok pre kids) by (apply tokens_list; [exact GK|exact IH]).
    cbn [flat_map tokens_of]. rewrite app_nil_r. cbn [fold_left]. rewrite fold_left_app. cbn [fold_left].
    set (q := prefixed (pre i) n).
    assert (TP : start_element_ns w (token_prefix o i) n None = (Writer (w_out (close_tag w) ++ [60] ++ prefixed (pre i) n) (Some (prefixed (pre i) n :: l)) true (w_ns (close_tag w)), true)).
    { unfold token_prefix. rewrite PR. pose proof (start_ns_prefixed w (pre i) n l N L) as SN. destruct (pre i); exact SN. }
    set (w1 := Writer (w_out (close_tag w) ++ [60] ++ q ++ attrs al ++ p) (Some (q :: l)) true []).
    assert (E1 : out_token o (TStart i n al p) = put o w1 (mark i (so_ns o))).
    { cbn [out_token]. unfold on_w. cbn [with_ns so_w]. rewrite W, TP. cbn [fst]. rewrite add_attrs_ok by reflexivity.
      rewrite (named_good _ GA). cbn [w_out w_nodes w_intag w_ns]. rewrite (close_empty_ns _ NS). unfold put, with_w, with_ns. fold q.
      cbn [so_depth so_didwrite so_options so_tabs so_macros so_pi so_encoding so_final so_ns]. unfold w1. rewrite <- !app_assoc. reflexivity. }
    rewrite E1. clear E1.
    destruct (KO (put o w1 (mark i (so_ns o))) w1 (q :: l)) as (n2 & E2 & U2 & F2); try reflexivity.
    { intros j. cbn [put so_ns]. rewrite <- PR. apply prefix_names, mark_names. }
    rewrite F2. exists n2. cbn [put so_ns] in E2. split; [eapply grows_trans; [apply grows_mark|exact E2]|]. split.
    + intros j U Lj. destruct U as [U|[]]. apply uses_elem in U as [->|U].
      * eapply used_grows; [exact E2|apply mark_used, Lj].
      * apply U2; [exact U|]. cbn [put so_ns]. rewrite <- (grows_length _ _ (grows_mark (so_ns o) i)). exact Lj.
    + cbn [out_token]. unfold on_w. cbn [put so_w]. unfold put, with_w. cbn [so_depth so_didwrite so_options so_tabs so_macros so_pi so_encoding so_final so_ns].
      f_equal. f_equal. unfold text_written at 2. cbn [flat_map tree_xml]. rewrite app_nil_r. unfold text_written. destruct kids as [|k ks].
      * unfold end_element, w1. cbn [w_nodes w_intag fst w_out w_ns attrs flat_map]. rewrite L. unfold q. rewrite <- !app_assoc. reflexivity.
      * assert (CT : close_tag w1 = Writer ((w_out (close_tag w) ++ [60] ++ q ++ attrs al ++ p) ++ [62]) (Some (q :: l)) false []) by reflexivity.
        rewrite CT. unfold end_element. change (w_nodes w1) with (Some (q :: l)). cbn [w_nodes w_intag fst w_out w_ns]. rewrite L.
        f_equal. unfold q. rewrite <- !app_assoc. reflexivity.
Qed.
Lemma tokens_ok : forall pre ts, Forall good_tree ts -> tok_ok pre ts.
Proof. intros pre ts G. apply tokens_list; [exact G|]. apply Forall_forall. intros t _. apply tokens_tree. Qed.
