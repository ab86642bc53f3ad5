(** Start tags of units, in archives and alone, are XML. *)
From Verif Require Import Base Text_Model Text_Spec Text_Proofs Text_Proofs3 Api_Model Api_Spec Api_Proofs Api_Proofs3 Writer_Model Writer_Spec Writer_Proofs2 Writer_Proofs3 Writer_Proofs7 Writer_Proofs8 Writer_Proofs10 Pretty_Spec Pretty_Proofs2 Archive_Model Archive_Spec Root_Model Root_Spec Root_Proofs Root_Proofs2 Root_Proofs3 Root_Proofs4 Root_Proofs5 Source_Model Source_Spec Source_Proofs Source_Proofs2.
From Verif Require Import Source_Model Source_Spec Source_Proofs3.
Local Open Scope N_scope.

Definition fine_ns (n : ns) : Prop :=
  (ns_prefix n = [] \/ ncname (ns_prefix n) /\ plain_start (ns_prefix n) /\ ns_prefix n <> txt "xmlns" /\ ns_prefix n <> txt "xml") /\ ns_uri n <> [] /\ xml_chars (ns_uri n).
Definition fine_out (o : sout) : Prop := Forall fine_ns (so_ns o) /\ NoDup (map ns_prefix (so_ns o)) /\ xml_chars (so_tabs o).
Definition fine_args (g : tag_args) : Prop :=
  xml_chars_opt (g_language g) /\ xml_chars_opt (g_revision g) /\ xml_chars_opt (g_url g) /\ xml_chars_opt (g_filename g) /\ xml_chars_opt (g_version g) /\
  xml_chars_opt (g_timestamp g) /\ xml_chars_opt (g_hash g) /\ xml_chars_opt (g_encoding g) /\ NoDup (map fst (pairs_of (g_attributes g))) /\
  forall n v, In (n, v) (pairs_of (g_attributes g)) -> ncname n /\ ~ In n (txt "src-encoding" :: reserved) /\ xml_chars v.
Lemma rest_ok : forall o g, fine_out o -> fine_args g ->
  let l := unit_attrs o g in Forall ok_attr l /\ NoDup (map fst l).
Proof.
  intros o g (NS & ND & TS) (AL & RV & UR & S2 & S3 & S4 & S5 & S6 & NDA & AT) l. subst l. unfold unit_attrs.
  set (U := pairs_of (g_attributes g)) in *.
  assert (UN : user_names U).
  { intros m I. destruct (pairs_names _ _ I) as (v & J). destruct (AT m v J) as (A & B & _). auto. }
  assert (UF : Forall ok_attr U).
  { apply Forall_forall. intros (n, v) I. destruct (AT n v I) as ((A & A') & B & C). split; [exact A|]. split; [exact C|]. cbn [fst].
    apply not_declares; [exact A'|]. intros ->. apply B. vm_compute. tauto. }
  assert (TP : tabs_facts (match prefix_at POS (so_ns o) with [] => txt "tabs" | p => p ++ txt ":tabs" end)).
  { assert (PP : prefix_fine (prefix_at POS (so_ns o))).
    { unfold prefix_at. destruct (nth_error (so_ns o) POS) as [n|] eqn:E; [|left; reflexivity].
      pose proof (proj1 (Forall_forall _ _) NS n (nth_error_In _ _ E)) as ([P|(P1 & _ & P2 & P3)] & _); [left; exact P|right; auto]. }
    destruct (prefix_at POS (so_ns o)) as [|c p]; [exact tabs_plain|].
    destruct PP as [P|(((_ & P1) & P2) & P3 & _)]; [discriminate|].
    assert (T : ~ In 58 (txt "tabs")) by (vm_compute; intuition discriminate).
    change (txt ":tabs") with (58 :: txt "tabs"). split; [|split; [|split]].
    + split; [discriminate|]. apply Forall_app. split; [exact P1|]. change (58 :: txt "tabs") with (txt ":tabs").
      repeat (apply Forall_nil || (apply Forall_cons; [unfold name_byte; vm_compute; repeat split; discriminate|])).
    + apply not_declares_prefixed; assumption.
    + apply local_prefixed, T.
    + left. apply in_or_app. right. left. reflexivity. }
  set (tn := match prefix_at POS (so_ns o) with [] => txt "tabs" | p => p ++ txt ":tabs" end) in *.
  destruct TP as (T1 & T2 & _ & T4).
  assert (NU : forall n, In n (txt "src-encoding" :: reserved) -> ~ In n (map fst U)).
  { intros n I J. destruct (UN n J) as (_ & B). contradiction. }
  (* options *)
  set (L1 := (if so_depth o =? 0 then match stored_options (so_options o) with [] => [] | s => [(txt "options", s)] end else []) ++ U).
  assert (H1 : Forall ok_attr L1 /\ NoDup (map fst L1) /\ forall m, In m (map fst L1) -> m = txt "options" \/ In m (map fst U)).
  { assert (E : exists v, L1 = given (txt "options") v ++ U /\ xml_chars_opt v).
    { unfold L1. destruct (so_depth o =? 0); [|exists None; split; [reflexivity|exact Logic.I]].
      destruct (stored_options (so_options o)) eqn:E; [exists None; split; [reflexivity|exact Logic.I]|]. eexists (Some _). split; [reflexivity|]. cbn. rewrite <- E. apply options_chars. }
    destruct E as (v & -> & V). apply more_given; [name_ok|discriminate|exact V|exact UF|exact NDA|apply NU; vm_compute; tauto]. }
  destruct H1 as (F1 & D1 & I1).
  set (L2 := (if opt (so_options o) B_STORE_ENCODING then [(txt "src-encoding", match g_encoding g with None | Some [] => txt "UTF-8" | Some e => e end)] else []) ++ L1).
  assert (H2 : Forall ok_attr L2 /\ NoDup (map fst L2) /\ forall m, In m (map fst L2) -> m = txt "src-encoding" \/ In m (map fst L1)).
  { assert (E : exists v, L2 = given (txt "src-encoding") v ++ L1 /\ xml_chars_opt v).
    { unfold L2. destruct (opt (so_options o) B_STORE_ENCODING); [|exists None; split; [reflexivity|exact Logic.I]]. eexists (Some _). split; [reflexivity|]. cbn.
      destruct (g_encoding g) as [[|c e]|]; [|exact S6|]; repeat (constructor; [left; vm_compute; discriminate|]); constructor. }
    destruct E as (v & -> & V). apply more_given; [name_ok|discriminate|exact V|exact F1|exact D1|].
    intros I. destruct (I1 _ I) as [Q|Q]; [discriminate Q|]. revert Q. apply NU. vm_compute. tauto. }
  destruct H2 as (F2 & D2 & I2).
  destruct (more_given (txt "hash") (g_hash g) L2) as (F3 & D3 & I3); [name_ok|discriminate|exact S5|exact F2|exact D2| |].
  { intros I. apply I2 in I as [Q|I]; [discriminate Q|]. apply I1 in I as [Q|I]; [discriminate Q|]. revert I. apply NU. vm_compute. tauto. }
  set (L3 := given (txt "hash") _ ++ L2) in *.
  destruct (more_given (txt "timestamp") (g_timestamp g) L3) as (F4 & D4 & I4); [name_ok|discriminate|exact S4|exact F3|exact D3| |].
  { intros I. apply I3 in I as [Q|I]; [discriminate Q|]. apply I2 in I as [Q|I]; [discriminate Q|]. apply I1 in I as [Q|I]; [discriminate Q|]. revert I. apply NU. vm_compute. tauto. }
  set (L4 := given (txt "timestamp") _ ++ L3) in *.
  assert (NT : ~ In tn (map fst L4)).
  { assert (TT : forall m, ncname m -> m <> txt "tabs" -> tn <> m).
    { intros m (_ & C) X Q. destruct T4 as [T4|T4]; [rewrite Q in T4; contradiction|]. apply X. rewrite <- Q. exact T4. }
    intros I. apply I4 in I as [Q|I]; [revert Q; apply TT; [name_ok|discriminate]|]. apply I3 in I as [Q|I]; [revert Q; apply TT; [name_ok|discriminate]|].
    apply I2 in I as [Q|I]; [revert Q; apply TT; [name_ok|discriminate]|]. apply I1 in I as [Q|I]; [revert Q; apply TT; [name_ok|discriminate]|].
    destruct (UN _ I) as (A & B). revert B. destruct T4 as [T4|T4]; [destruct A as (_ & A); contradiction|]. rewrite T4. intros B. apply B. vm_compute. tauto. }
  set (L5 := (if opt (so_options o) B_POSITION then [(tn, so_tabs o)] else []) ++ L4).
  assert (H5 : Forall ok_attr L5 /\ NoDup (map fst L5) /\ forall m, In m (map fst L5) -> m = tn \/ In m (map fst L4)).
  { unfold L5. destruct (opt (so_options o) B_POSITION); cbn [app map fst]; [|auto]. split; [|split; [constructor; assumption|intros m [<-|I]; auto]].
    constructor; [|exact F4]. split; [exact T1|]. split; [|exact T2]. cbn [snd]. exact TS. }
  destruct H5 as (F5 & D5 & I5).
  assert (REST : forall n, n <> tn -> n <> txt "timestamp" -> n <> txt "hash" -> n <> txt "src-encoding" -> n <> txt "options" -> In n (txt "src-encoding" :: reserved) -> ~ In n (map fst L5)).
  { intros n X1 X2 X3 X4 X5 X6 I. apply I5 in I as [Q|I]; [contradiction|]. apply I4 in I as [Q|I]; [contradiction|]. apply I3 in I as [Q|I]; [contradiction|].
    apply I2 in I as [Q|I]; [contradiction|]. apply I1 in I as [Q|I]; [contradiction|]. revert I. apply NU, X6. }
  assert (NTN : forall m, ~ In 58 m -> m <> txt "tabs" -> m <> tn).
  { intros m C X Q. destruct T4 as [T4|T4]; [rewrite <- Q in T4; contradiction|]. apply X. rewrite Q. exact T4. }
  destruct (more_given (txt "version") (g_version g) L5) as (F6 & D6 & I6); [name_ok|discriminate|exact S3|exact F5|exact D5| |].
  { apply REST; try discriminate; [apply NTN; [vm_compute; intuition discriminate|discriminate]|vm_compute; tauto]. }
  set (L6 := given (txt "version") _ ++ L5) in *.
  destruct (more_given (txt "filename") (g_filename g) L6) as (F7 & D7 & I7); [name_ok|discriminate|exact S2|exact F6|exact D6| |].
  { intros I. apply I6 in I as [Q|I]; [discriminate Q|]. revert I. apply REST; try discriminate; [apply NTN; [vm_compute; intuition discriminate|discriminate]|vm_compute; tauto]. }
  set (L7 := given (txt "filename") _ ++ L6) in *.
  destruct (more_given (txt "url") (g_url g) L7) as (F8 & D8 & I8); [name_ok|discriminate|exact UR|exact F7|exact D7| |].
  { intros I. apply I7 in I as [Q|I]; [discriminate Q|]. apply I6 in I as [Q|I]; [discriminate Q|]. revert I. apply REST; try discriminate; [apply NTN; [vm_compute; intuition discriminate|discriminate]|vm_compute; tauto]. }
  set (L8 := given (txt "url") _ ++ L7) in *.
  destruct (more_given (txt "language") (g_language g) L8) as (F9 & D9 & I9); [name_ok|discriminate|exact AL|exact F8|exact D8| |].
  { intros I. apply I8 in I as [Q|I]; [discriminate Q|]. apply I7 in I as [Q|I]; [discriminate Q|]. apply I6 in I as [Q|I]; [discriminate Q|]. revert I. apply REST; try discriminate; [apply NTN; [vm_compute; intuition discriminate|discriminate]|vm_compute; tauto]. }
  set (L9 := given (txt "language") _ ++ L8) in *.
  destruct (more_given (txt "revision") (g_revision g) L9) as (F10 & D10 & _); [name_ok|discriminate|exact RV|exact F9|exact D9| |].
  { intros I. apply I9 in I as [Q|I]; [discriminate Q|]. apply I8 in I as [Q|I]; [discriminate Q|]. apply I7 in I as [Q|I]; [discriminate Q|]. apply I6 in I as [Q|I]; [discriminate Q|].
    revert I. apply REST; try discriminate; [apply NTN; [vm_compute; intuition discriminate|discriminate]|vm_compute; tauto]. }
  split; assumption.
Qed.
Lemma tag_ok : forall o g, fine_out o -> fine_args g ->
  let L := tag_attrs o g in
  Forall (fun p => qname (fst p) /\ xml_chars (snd p)) L /\ NoDup (map fst L).
Proof.
  intros o g FO FG L. destruct (rest_ok o g FO FG) as (RF & RD). destruct FO as (NS & ND & _). subst L. unfold tag_attrs.
  set (R := unit_attrs _ _) in *.
  assert (NR : named R = R).
  { apply named_all. eapply Forall_impl; [|exact RF]. intros p ((X & _) & _). exact X. }
  rewrite NR. set (D := if opt (so_options o) B_NAMESPACE_DECL then map ns_attr (filter (declared (so_options o) (so_depth o)) (ns_now o)) else []).
  assert (NSN : Forall (fun n => (ns_prefix n = [] \/ ncname (ns_prefix n)) /\ xml_chars (ns_uri n)) (ns_now o) /\ NoDup (map ns_prefix (ns_now o))).
  { pose proof (now_names o) as SN. unfold same_names in SN.
    assert (PE : map ns_prefix (ns_now o) = map ns_prefix (so_ns o)).
    { transitivity (map fst (map (fun n => (ns_prefix n, ns_uri n)) (ns_now o))); [rewrite map_map; reflexivity|]. rewrite SN, map_map. reflexivity. }
    split; [|rewrite PE; exact ND].
    assert (X : Forall (fun q : bytes * bytes => (fst q = [] \/ ncname (fst q)) /\ xml_chars (snd q)) (map (fun n => (ns_prefix n, ns_uri n)) (ns_now o))).
    { rewrite SN. apply Forall_map. eapply Forall_impl; [|exact NS]. intros n ([P|(P & _)] & _ & C); cbn [fst snd]; auto. }
    apply Forall_map in X. exact X. }
  destruct NSN as (NF & NN).
  assert (DF : Forall (fun p => qname (fst p) /\ xml_chars (snd p)) D /\ NoDup (map fst D) /\ Forall (fun p => declares (fst p) <> None) D).
  { unfold D. destruct (opt (so_options o) B_NAMESPACE_DECL); [|repeat split; constructor].
    set (l := ns_now o) in *. clearbody l. set (f := declared _ _). clear -NF NN.
    induction l as [|n l IH]; cbn [filter map]; [repeat split; constructor|]. destruct (Forall_inv NF) as (P & C). cbn [map] in NN. inversion NN as [|x y NI NN2]; subst.
    destruct (IH (Forall_inv_tail NF) NN2) as (A & B & E). destruct (f n); [|auto]. cbn [map]. split; [|split].
    - constructor; [|exact A]. split; [|exact C]. unfold ns_attr. destruct (ns_prefix n) as [|c p] eqn:En; cbn [fst].
      + assert (X : ncname (txt "xmlns")) by name_ok. apply X.
      + split; [discriminate|]. destruct P as [P|((_ & P) & _)]; [discriminate|]. apply Forall_app. split; [|exact P].
        repeat (apply Forall_nil || (apply Forall_cons; [unfold name_byte; vm_compute; repeat split; discriminate|])).
    - constructor; [|exact B]. intros I. apply in_map_iff in I as (q & Q1 & Q2). apply in_map_iff in Q2 as (m & <- & Q2). apply filter_In in Q2 as (Q2 & _).
      apply NI. rewrite <- (ns_attr_inj _ _ Q1). apply in_map. exact Q2.
    - constructor; [|exact E]. rewrite declares_ns. discriminate. }
  destruct DF as (DF & DN & DD). split.
  - apply Forall_app. split; [exact DF|]. eapply Forall_impl; [|exact RF]. intros p (A & B & _). auto.
  - rewrite map_app. apply NoDup_app_disj; [exact DN|exact RD|]. intros x I J. apply in_map_iff in I as (p & <- & I). apply in_map_iff in J as (q & Q & J).
    rewrite Forall_forall in DD, RF. apply (DD p I). rewrite <- Q. apply (RF q J).
Qed.
