(** Proofs about unit start tags and the ends of units. *)
From Verif Require Import Base Text_Model Text_Spec Text_Proofs Text_Proofs2 Text_Proofs3 Api_Model Api_Proofs Api_Proofs3 Writer_Model Writer_Spec Writer_Proofs.
Local Open Scope N_scope.

(** ** Searching *)
Lemma strchr_app : forall x c y, no_byte c x -> strchr (x ++ c :: y) c = Some (length x).
Proof.
  induction x as [|d x IH]; intros c y H; cbn [strchr app].
  - rewrite N.eqb_refl. reflexivity.
  - inversion H; subst. rewrite (proj2 (N.eqb_neq d c)) by assumption. rewrite IH by assumption. reflexivity.
Qed.
Lemma strchr_none : forall x c, no_byte c x -> strchr x c = None.
Proof.
  induction x as [|d x IH]; intros c H; [reflexivity|]. cbn [strchr]. inversion H; subst.
  rewrite (proj2 (N.eqb_neq d c)) by assumption. rewrite IH by assumption. reflexivity.
Qed.
Lemma firstn_pre : forall (p y : bytes), firstn (length p) (p ++ y) = p.
Proof. induction p as [|c p IH]; intros y; [reflexivity|]. cbn. f_equal. apply IH. Qed.
(** no occurrence starts in [x] *)
Lemma strstr_skip : forall x p z, p <> [] -> (forall x1 x2, x = x1 ++ x2 -> x2 <> [] -> forall r, x2 ++ z <> p ++ r) ->
  strstr (x ++ z) p = option_map (fun n => (length x + n)%nat) (strstr z p).
Proof.
  induction x as [|c x IH]; intros p z NE H.
  - cbn. destruct (strstr z p); reflexivity.
  - cbn [app strstr]. destruct (beqb (firstn (length p) (c :: x ++ z)) p) eqn:B.
    + exfalso. apply beqb_true in B. apply (H [] (c :: x) eq_refl ltac:(discriminate) (skipn (length p) (c :: x ++ z))).
      cbn [app]. rewrite <- B at 1. symmetry. apply firstn_skipn.
    + rewrite IH; [|exact NE|].
      * destruct (strstr z p); reflexivity.
      * intros x1 x2 E. apply (H (c :: x1) x2). rewrite E. reflexivity.
Qed.
Lemma strstr_at : forall p z, strstr (p ++ z) p = Some O.
Proof. intros p z. destruct (p ++ z) eqn:E; cbn [strstr]; rewrite <- E, firstn_pre, beqb_refl; reflexivity. Qed.
Lemma strstr_none : forall s p, p <> [] -> ~ contains s p -> strstr s p = None.
Proof.
  induction s as [|c s IH]; intros p NE H; cbn [strstr].
  - destruct p; [contradiction|]. reflexivity.
  - destruct (beqb (firstn (length p) (c :: s)) p) eqn:B.
    + exfalso. apply beqb_true in B. apply H. exists [], (skipn (length p) (c :: s)). cbn [app]. rewrite <- B at 1. symmetry. apply firstn_skipn.
    + rewrite IH; [reflexivity|exact NE|]. intros (x & y & E). apply H. exists (c :: x), y. rewrite E. reflexivity.
Qed.

(** ** Escaped values *)
Lemma esc_attr_no : forall s, no_byte 34 (esc_attr s) /\ no_byte 60 (esc_attr s) /\ no_byte 62 (esc_attr s).
Proof.
  intros s. unfold no_byte. induction s as [|c s IH]; [repeat constructor|]. destruct IH as (I1 & I2 & I3).
  assert (E : esc_attr (c :: s) = (if c =? 34 then txt "&quot;" else if c =? 60 then txt "&lt;" else if c =? 62 then txt "&gt;"
                     else if c =? 38 then txt "&amp;" else if c =? 10 then txt "&#10;" else if c =? 9 then txt "&#9;"
                     else if c =? 13 then txt "&#13;" else [c]) ++ esc_attr s) by reflexivity.
  rewrite E, !Forall_app.
  destruct (c =? 34) eqn:E1; [repeat split; try assumption; repeat constructor; discriminate|].
  destruct (c =? 60) eqn:E2; [repeat split; try assumption; repeat constructor; discriminate|].
  destruct (c =? 62) eqn:E3; [repeat split; try assumption; repeat constructor; discriminate|].
  destruct (c =? 38) eqn:E4; [repeat split; try assumption; repeat constructor; discriminate|].
  destruct (c =? 10) eqn:E5; [repeat split; try assumption; repeat constructor; discriminate|].
  destruct (c =? 9) eqn:E6; [repeat split; try assumption; repeat constructor; discriminate|].
  destruct (c =? 13) eqn:E7; [repeat split; try assumption; repeat constructor; discriminate|].
  apply N.eqb_neq in E1, E2, E3. repeat split; try assumption; repeat constructor; assumption.
Qed.
Lemma esc_attr_value : forall s, attr_value (esc_attr s) s.
Proof.
  induction s as [|c s IH]; [constructor|].
  change (esc_attr (c :: s)) with ((if c =? 34 then txt "&quot;" else if c =? 60 then txt "&lt;" else if c =? 62 then txt "&gt;"
                     else if c =? 38 then txt "&amp;" else if c =? 10 then txt "&#10;" else if c =? 9 then txt "&#9;"
                     else if c =? 13 then txt "&#13;" else [c]) ++ esc_attr s).
  repeat match goal with |- context [if ?x =? ?k then _ else _] => let J := fresh "J" in destruct (x =? k) eqn:J;
     [apply N.eqb_eq in J; subst c; apply av_ref; [cbn; tauto|exact IH]|apply N.eqb_neq in J] end.
  apply av_plain; assumption.
Qed.
Lemma escaped_data : forall s, char_data (escaped s) s.
Proof.
  induction s as [|c s IH]; [constructor|].
  change (escaped (c :: s)) with ((if c =? 60 then txt "&lt;" else if c =? 62 then txt "&gt;" else if c =? 38 then txt "&amp;"
                     else if c =? 13 then txt "&#13;" else [c]) ++ escaped s).
  repeat match goal with |- context [if ?x =? ?k then _ else _] => let J := fresh "J" in destruct (x =? k) eqn:J;
     [apply N.eqb_eq in J; subst c; apply cd_ref; [cbn; tauto|exact IH]|apply N.eqb_neq in J] end.
  apply cd_plain; assumption.
Qed.
Lemma clean_esc_attr : forall s, clean s -> clean (esc_attr s).
Proof.
  induction s as [|c s IH]; intros H; [constructor|]. inversion H; subst.
  change (esc_attr (c :: s)) with ((if c =? 34 then txt "&quot;" else if c =? 60 then txt "&lt;" else if c =? 62 then txt "&gt;"
                     else if c =? 38 then txt "&amp;" else if c =? 10 then txt "&#10;" else if c =? 9 then txt "&#9;"
                     else if c =? 13 then txt "&#13;" else [c]) ++ esc_attr s).
  apply no_byte_app. split; [|apply IH; assumption]. unfold no_byte.
  repeat match goal with |- context [if ?x =? ?k then _ else _] => let J := fresh "J" in destruct (x =? k) eqn:J end; repeat constructor; try discriminate; assumption.
Qed.
Lemma clean_escaped : forall s, clean s -> clean (escaped s).
Proof.
  induction s as [|c s IH]; intros H; [constructor|]. inversion H; subst.
  change (escaped (c :: s)) with ((if c =? 60 then txt "&lt;" else if c =? 62 then txt "&gt;" else if c =? 38 then txt "&amp;"
                     else if c =? 13 then txt "&#13;" else [c]) ++ escaped s).
  apply no_byte_app. split; [|apply IH; assumption]. unfold no_byte.
  repeat match goal with |- context [if ?x =? ?k then _ else _] => let J := fresh "J" in destruct (x =? k) eqn:J end; repeat constructor; try discriminate; assumption.
Qed.
Definition clean_pair (p : bytes * bytes) : Prop := clean (fst p) /\ clean (snd p).
Lemma clean_attrs : forall l, Forall clean_pair l -> clean (attrs l).
Proof.
  induction l as [|[n v] l IH]; intros H; [constructor|]. inversion H as [|x y [C1 C2] H']; subst.
  change (attrs ((n, v) :: l)) with (([32] ++ n ++ txt "=""" ++ esc_attr v ++ [34]) ++ attrs l). cbn [fst snd] in *.
  unfold clean. rewrite !no_byte_app. repeat split; try (apply IH; assumption); try assumption; try (apply clean_esc_attr; assumption);
    repeat constructor; discriminate.
Qed.
(** what follows the first attribute in a list of attributes starts with a space *)
Lemma attrs_head : forall l, l <> [] -> exists t, attrs l = 32 :: t.
Proof. intros [|[n v] l] H; [contradiction|]. eexists. reflexivity. Qed.

(** ** Namespaces: the srcML one is first *)
Definition same_names (l l' : list ns) : Prop := map (fun n => (ns_prefix n, ns_uri n)) l = map (fun n => (ns_prefix n, ns_uri n)) l'.
Lemma mark_names : forall i l, same_names (mark i l) l.
Proof. intros i l. revert i. unfold same_names. induction l as [|n t IH]; intros [|i]; cbn; try reflexivity. f_equal. apply IH. Qed.
Lemma use_names : forall b u l, same_names (use_uri b u l) l.
Proof.
  intros b u l. unfold use_uri, same_names. destruct b; [|reflexivity]. induction l as [|n t IH]; [reflexivity|]. cbn [modify_uri].
  destruct (beqb (ns_uri n) u); [reflexivity|]. cbn [map]. f_equal. exact IH.
Qed.
Lemma names_trans : forall a b c, same_names a b -> same_names b c -> same_names a c.
Proof. unfold same_names. intros. congruence. Qed.
Lemma options_names : forall o l, same_names (mark_options o l) l.
Proof. intros. unfold mark_options. eapply names_trans; [apply use_names|]. eapply names_trans; apply use_names. Qed.
Lemma prefix_names : forall i l l', same_names l l' -> prefix_at i l = prefix_at i l'.
Proof.
  unfold same_names, prefix_at. induction i as [|i IH]; intros [|n l] [|m l'] H; try discriminate; try reflexivity; cbn in *.
  - congruence.
  - injection H as _ _ H. apply IH, H.
Qed.
Lemma uris_names : forall l l', same_names l l' -> map ns_uri l = map ns_uri l'.
Proof. intros l l' H. unfold same_names in H. apply (f_equal (map snd)) in H. rewrite !map_map in H. exact H. Qed.
Lemma find_names : forall l l' u, same_names l l' -> option_map ns_prefix (find_uri l u) = option_map ns_prefix (find_uri l' u).
Proof.
  unfold same_names. induction l as [|n l IH]; intros [|m l'] u H; try discriminate; [reflexivity|]. cbn in *. injection H as H1 H2 H3.
  rewrite H2. destruct (beqb (ns_uri m) u); [cbn; congruence|apply IH, H3].
Qed.

Lemma merged_first : forall l, exists fl rest, merge default_namespaces l = Ns (prefix_at SRC (merge default_namespaces l)) SRC_URI fl :: rest /\
  subflags (N.lor NS_STANDARD NS_REQUIRED) fl.
Proof.
  intros l. pose proof (merge_uris l default_namespaces) as U.
  destruct (merge default_namespaces l) as [|[p u fl] rest] eqn:E; [discriminate|]. cbn [map ns_uri] in U.
  assert (u = SRC_URI) as -> by (cbn in U; injection U as U _; exact U).
  exists fl, rest. split; [reflexivity|].
  destruct (merge_flags default_namespaces l SRC_URI (Ns [] SRC_URI (N.lor NS_STANDARD NS_REQUIRED)) eq_refl) as (m & F & S).
  rewrite E in F. cbn [find_uri ns_uri] in F. rewrite beqb_refl in F. injection F as <-. exact S.
Qed.
Lemma merged_prefix : forall l, prefix_at SRC (merge default_namespaces l) = match find_uri (merge default_namespaces l) SRC_URI with Some n => ns_prefix n | None => [] end.
Proof.
  intros l. destruct (merged_first l) as (fl & rest & E & _). rewrite E at 2. cbn [find_uri ns_uri]. rewrite beqb_refl. reflexivity.
Qed.
Lemma same_nodup : forall l u n, NoDup (map ns_uri l) -> find_uri l u = Some n -> same u l = [n].
Proof.
  induction l as [|m l IH]; intros u n ND F; [discriminate|]. cbn [map find_uri] in *. inversion ND as [|x y NI ND']; subst. cbn [same filter].
  destruct (beqb (ns_uri m) u) eqn:B.
  - injection F as ->. f_equal. apply beqb_true in B. subst u. fold (same (ns_uri n) l).
    destruct (same (ns_uri n) l) as [|k r] eqn:E; [reflexivity|]. exfalso. apply NI.
    assert (I : In k (same (ns_uri n) l)) by (rewrite E; left; reflexivity). rewrite <- (same_uri _ _ _ I). apply in_map. apply filter_In in I. apply I.
  - apply IH; assumption.
Qed.
(** the prefix of the unit element is the one the container gives the srcML namespace *)
Lemma src_prefix : forall l n, NoDup (map ns_uri l) -> find_uri l SRC_URI = Some n -> prefix_at SRC (merge default_namespaces l) = ns_prefix n.
Proof.
  intros l n ND F. rewrite merged_prefix, merge_find, (same_nodup _ _ _ ND F). cbn [fold_left find_uri default_namespaces ns_uri].
  rewrite beqb_refl. unfold st. rewrite (proj2 (find_uri_some _ _ _ F)). cbn [find_uri default_namespaces ns_uri]. rewrite beqb_refl. reflexivity.
Qed.
Lemma src_prefix_again : forall l l', same_names l' (merge default_namespaces l) ->
  prefix_at SRC (merge default_namespaces l') = prefix_at SRC (merge default_namespaces l).
Proof.
  intros l l' H. destruct (merged_first l) as (fl & rest & E & _).
  assert (ND : NoDup (map ns_uri l')).
  { rewrite (uris_names _ _ H). apply merge_nodup. unfold default_namespaces. cbn [map ns_uri]. repeat (apply NoDup_cons; [vm_compute; intuition discriminate|]). apply NoDup_nil. }
  destruct (find_uri l' SRC_URI) as [n|] eqn:F.
  - rewrite (src_prefix l' n ND F), merged_prefix. pose proof (find_names _ _ SRC_URI H) as G. rewrite F in G. revert G.
    destruct (find_uri (merge default_namespaces l) SRC_URI) as [m|]; cbn [option_map]; intros G; [injection G as G; exact G|discriminate].
  - exfalso. pose proof (find_names _ _ SRC_URI H) as G. rewrite F, E in G. cbn [find_uri ns_uri] in G. rewrite beqb_refl in G. discriminate.
Qed.

(** ** The start tag *)
Lemma add_attrs_ok : forall l w, w_intag w = true -> add_attrs w l = Writer (w_out w ++ attrs (named l)) (w_nodes w) true (w_ns w).
Proof.
  induction l as [|[n v] l IH]; intros w H; cbn [add_attrs fold_left].
  - cbn. rewrite app_nil_r. destruct w; cbn in *; subst; reflexivity.
  - fold (add_attrs (fst (write_attribute w (fst (n, v)) (snd (n, v)))) l). cbn [fst snd]. unfold write_attribute. destruct n as [|n0 n'].
    + cbn [fst]. rewrite IH by exact H. reflexivity.
    + rewrite H. cbn [fst]. rewrite IH by reflexivity. cbn [w_out w_nodes w_ns named filter fst].
      destruct (beqb (n0 :: n') []) eqn:B; [apply beqb_true in B; discriminate|]. cbn [negb attrs flat_map]. rewrite <- app_assoc. reflexivity.
Qed.
Lemma ns_attr_named : forall l, named (map ns_attr l) = map ns_attr l.
Proof.
  induction l as [|n l IH]; [reflexivity|]. cbn [map named filter]. fold (named (map ns_attr l)). rewrite IH.
  destruct (beqb (fst (ns_attr n)) []) eqn:B; [|reflexivity]. apply beqb_true in B. unfold ns_attr in B. cbn [fst] in B. destruct (ns_prefix n); discriminate.
Qed.
Lemma named_app : forall a b, named (a ++ b) = named a ++ named b. Proof. intros. apply filter_app. Qed.
Lemma unit_attrs_ext : forall o o' g, so_options o = so_options o' -> so_depth o = so_depth o' -> so_tabs o = so_tabs o' ->
  same_names (so_ns o) (so_ns o') -> unit_attrs o g = unit_attrs o' g.
Proof.
  intros o o' g E1 E2 E3 E4. unfold unit_attrs. rewrite E1, E2, E3, (prefix_names POS _ _ E4). reflexivity.
Qed.
Lemma qname_prefixed : forall p, qname (match p with [] => None | _ => Some p end) (txt "unit") = prefixed p (txt "unit").
Proof. intros [|c p]; reflexivity. Qed.
Lemma close_nodes : forall w, w_nodes (close_tag w) = w_nodes w.
Proof. intros w. unfold close_tag. destruct (w_intag w); reflexivity. Qed.
Lemma start_ns_prefixed : forall w p n l, n <> [] -> w_nodes w = Some l ->
  start_element_ns w (match p with [] => None | _ => Some p end) n None =
  (Writer (w_out (close_tag w) ++ [60] ++ prefixed p n) (Some (prefixed p n :: l)) true (w_ns (close_tag w)), true).
Proof.
  intros w p n l NE L. unfold start_element_ns. destruct n as [|n0 n']; [contradiction|]. f_equal.
  replace (qname (match p with [] => None | _ :: _ => Some p end) (n0 :: n')) with (prefixed p (n0 :: n')) by (destruct p; reflexivity).
  unfold start_element. assert (X : exists c r, prefixed p (n0 :: n') = c :: r) by (destruct p; cbn; eauto).
  destruct X as (c & r & ->). rewrite close_nodes, L. reflexivity.
Qed.
Definition after_tag (o : sout) (w : writer) (l : list ns) : sout :=
  SOut (Some w) (if so_depth o =? 0 then 1 else so_depth o) true l (so_options o) (so_tabs o) (so_macros o) (so_pi o) (so_encoding o) (so_final o).
Lemma start_unit_ok : forall o g w l, so_w o = Some w -> w_nodes w = Some l ->
  exists ns', same_names ns' (so_ns o) /\
  start_unit o g = after_tag o
    ((if g_macros g then fun x => fold_left macro_element (pairs_of (so_macros o)) x else fun x => x)
     (Writer (w_out (close_tag w) ++ start_tag o g) (Some (prefixed (prefix_at SRC (so_ns o)) (txt "unit") :: l)) true (w_ns (close_tag w)))) ns'.
Proof.
  intros o g w l W L. unfold start_unit. set (q := prefixed (prefix_at SRC (so_ns o)) (txt "unit")).
  set (l1 := mark SRC (so_ns o)). set (l2 := mark_options (so_options o) l1).
  assert (S : on_w (with_ns o l1) (fun w => fst (start_element_ns w (match prefix_at SRC (so_ns o) with [] => None | _ => Some (prefix_at SRC (so_ns o)) end) (txt "unit") None))
     = with_w (with_ns o l1) (Writer (w_out (close_tag w) ++ [60] ++ q) (Some (q :: l)) true (w_ns (close_tag w)))).
  { unfold on_w. cbn [with_ns so_w]. rewrite W.
    pose proof (start_ns_prefixed w (prefix_at SRC (so_ns o)) (txt "unit") l ltac:(discriminate) L) as G. unfold q.
    destruct (prefix_at SRC (so_ns o)) as [|c r]; exact (f_equal (fun x => with_w (with_ns o l1) (fst x)) G). }
  rewrite S. clear S. cbn [with_w with_ns so_options so_ns so_depth].
  set (A := if opt (so_options o) B_NAMESPACE_DECL then map ns_attr (filter (declared (so_options o) (so_depth o)) l2) else []).
  set (l3 := if opt (so_options o) B_NAMESPACE_DECL then l2 else l1).
  assert (N3 : same_names l3 (so_ns o)).
  { unfold l3, l2, l1. destruct (opt (so_options o) B_NAMESPACE_DECL); [eapply names_trans; [apply options_names|]|]; apply mark_names. }
  set (l4 := if opt (so_options o) B_POSITION then mark POS l3 else l3).
  assert (N4 : same_names l4 (so_ns o)). { unfold l4. destruct (opt (so_options o) B_POSITION); [eapply names_trans; [apply mark_names|]|]; exact N3. }
  exists l4. split; [exact N4|].
  set (o2 := if opt (so_options o) B_NAMESPACE_DECL then _ else _).
  assert (E2 : o2 = SOut (Some (Writer ((w_out (close_tag w) ++ [60] ++ q) ++ attrs A) (Some (q :: l)) true (w_ns (close_tag w)))) (so_depth o) (so_didwrite o) l3 (so_options o) (so_tabs o) (so_macros o) (so_pi o) (so_encoding o) (so_final o)).
  { unfold o2, A, l3. destruct (opt (so_options o) B_NAMESPACE_DECL).
    - unfold on_w, with_ns. cbn [so_w with_w so_depth so_didwrite so_options so_tabs so_macros so_pi so_encoding so_final so_ns].
      rewrite add_attrs_ok by reflexivity. rewrite ns_attr_named. reflexivity.
    - cbn [attrs flat_map]. rewrite app_nil_r. reflexivity. }
  rewrite E2. clear E2 o2. cbn [so_options so_ns].
  set (o3 := if opt (so_options o) B_POSITION then _ else _).
  assert (E3 : o3 = SOut (Some (Writer ((w_out (close_tag w) ++ [60] ++ q) ++ attrs A) (Some (q :: l)) true (w_ns (close_tag w)))) (so_depth o) (so_didwrite o) l4 (so_options o) (so_tabs o) (so_macros o) (so_pi o) (so_encoding o) (so_final o)).
  { unfold o3, l4. destruct (opt (so_options o) B_POSITION); reflexivity. }
  rewrite E3. clear E3 o3. set (base := SOut (Some (Writer ((w_out (close_tag w) ++ [60] ++ q) ++ attrs A) (Some (q :: l)) true (w_ns (close_tag w)))) (so_depth o) (so_didwrite o) l4 (so_options o) (so_tabs o) (so_macros o) (so_pi o) (so_encoding o) (so_final o)).
  assert (E4 : on_w base (fun w => add_attrs w (unit_attrs base g)) = SOut (Some (Writer (w_out (close_tag w) ++ start_tag o g) (Some (q :: l)) true (w_ns (close_tag w)))) (so_depth o) (so_didwrite o) l4 (so_options o) (so_tabs o) (so_macros o) (so_pi o) (so_encoding o) (so_final o)).
  { unfold base, on_w. cbn [so_w with_w so_depth so_didwrite so_options so_tabs so_macros so_pi so_encoding so_final so_ns].
    rewrite add_attrs_ok by reflexivity. cbn [w_out w_nodes w_ns]. unfold with_w. cbn [so_depth so_didwrite so_options so_tabs so_macros so_pi so_encoding so_final so_ns].
    rewrite (unit_attrs_ext _ o) by (try reflexivity; exact N4). unfold start_tag, tag_attrs. fold q. change (ns_now o) with l2. fold A.
    rewrite attrs_app, <- !app_assoc. reflexivity. }
  rewrite E4. clear E4. unfold after_tag. destruct (g_macros g); reflexivity.
Qed.
