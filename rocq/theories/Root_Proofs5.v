From Verif Require Import Base Text_Model Text_Spec Text_Proofs3 Api_Model Api_Spec Api_Proofs Api_Proofs3 Writer_Model Writer_Spec Writer_Proofs2 Writer_Proofs8 Archive_Model Archive_Spec Pretty_Spec Pretty_Proofs2 Root_Model Root_Spec Root_Proofs Root_Proofs2 Root_Proofs3 Root_Proofs4.
Local Open Scope N_scope.

(** ** the tag can be read *)
Lemma digits_chars : forall n, n < 10 ^ 64 -> xml_chars (dec_of n).
Proof. intros n L. destruct (dec_of_ok n L) as (_ & F & _). eapply Forall_impl; [|exact F]. cbn. intros c H. left. lia. Qed.
Lemma options_chars : forall o, xml_chars (stored_options o).
Proof.
  intros o. unfold stored_options, opt.
  destruct (N.testbit o B_CPP_TEXT_ELSE), (N.testbit o B_CPP_MARKUP_IF0), (N.testbit o B_LINE); cbn [txt];
    repeat (apply Forall_nil || (apply Forall_cons; [left; vm_compute; discriminate|])).
Qed.
Lemma ncname_txt : forall s, Forall (fun c => (33 <=? c) && negb (existsb (N.eqb c) [34; 38; 39; 47; 58; 60; 61; 62]) = true) s -> s <> [] -> ncname s.
Proof.
  intros s F NE. split; [split; [exact NE|]|].
  - eapply Forall_impl; [|exact F]. cbn. intros c H. apply andb_prop in H. destruct H as (H1 & H2). apply N.leb_le in H1.
    apply negb_true_iff in H2. repeat (apply orb_false_iff in H2; let J := fresh in destruct H2 as (J & H2); apply N.eqb_neq in J). unfold name_byte. lia.
  - intros I. pose proof (proj1 (Forall_forall _ _) F 58 I) as Q. vm_compute in Q. discriminate Q.
Qed.
Ltac name_ok := apply ncname_txt; [cbn; repeat (apply Forall_nil || (apply Forall_cons; [reflexivity|]))|discriminate].
Lemma pairs_names : forall al n, In n (map fst (pairs_of al)) -> exists v, In (n, v) (pairs_of al).
Proof. intros al n I. apply in_map_iff in I. destruct I as ((m, v) & E & I). cbn in E. subst m. eauto. Qed.
Definition prefix_fine (p : bytes) : Prop := p = [] \/ ncname p /\ p <> txt "xmlns" /\ p <> txt "xml".
Lemma tabs_fine : forall a, prefix_fine (prefix_at POS (root_namespaces a)) ->
  qname (tabs_name a) /\ declares (tabs_name a) = None /\ local_name (tabs_name a) = txt "tabs" /\ (In 58 (tabs_name a) \/ tabs_name a = txt "tabs").
Proof.
  intros a P. unfold tabs_name. destruct (prefix_at POS (root_namespaces a)) as [|c p] eqn:E.
  - split; [|split; [reflexivity|split; [reflexivity|right; reflexivity]]]. assert (X : ncname (txt "tabs")) by name_ok. apply X.
  - destruct P as [P|(((_ & P1) & P2) & P3 & _)]; [discriminate|]. set (q := c :: p) in *.
    assert (T : ~ In 58 (txt "tabs")) by (vm_compute; intuition discriminate).
    change (txt ":tabs") with (58 :: txt "tabs"). split; [|split; [|split]].
    + split; [discriminate|]. apply Forall_app. split; [exact P1|]. change (58 :: txt "tabs") with (txt ":tabs"). cbn.
      repeat (apply Forall_nil || (apply Forall_cons; [unfold name_byte; lia|])).
    + apply not_declares_prefixed; assumption.
    + apply local_prefixed, T.
    + left. apply in_or_app. right. left. reflexivity.
Qed.
Definition tabs_facts (t : bytes) : Prop := qname t /\ declares t = None /\ local_name t = txt "tabs" /\ (In 58 t \/ t = txt "tabs").
Lemma tabs_plain : tabs_facts (txt "tabs").
Proof. split; [|split; [reflexivity|split; [reflexivity|right; reflexivity]]]. assert (X : ncname (txt "tabs")) by name_ok. apply X. Qed.
Lemma root_rest_ok : forall a al t, expressible a al -> tabs_facts t -> a_tabstop a < 2 ^ 31 ->
  Forall (fun p => qname (fst p) /\ xml_chars (snd p)) (root_rest a t al) /\
  Forall (fun p : bytes * bytes => declares (fst p) = None) (root_rest a t al) /\
  NoDup (map fst (root_rest a t al)) /\
  sax_attributes (root_rest a t al) = root_rest a (txt "tabs") al /\ sax_namespaces (root_rest a t al) = [].
Proof.
  intros a al t (_ & R & U & V & ND & _ & AL) (T1 & T2 & T3 & T4) TS.
  assert (AN : forall n, In n (map fst (pairs_of al)) -> ncname n /\ ~ In n reserved).
  { intros n I. destruct (pairs_names al n I) as (v & J). destruct (AL n v J) as (A & B & _). auto. }
  assert (AD : forall n, In n (map fst (pairs_of al)) -> declares n = None).
  { intros n I. destruct (AN n I) as ((_ & A) & B). apply not_declares; [exact A|]. intros ->. apply B. vm_compute. tauto. }
  assert (SA : sax_attributes (pairs_of al) = pairs_of al /\ sax_namespaces (pairs_of al) = []).
  { destruct (sax_plain (pairs_of al)) as (A & B); [|split; assumption]. apply Forall_forall. intros (n, v) I. cbn [fst].
    destruct (AN n) as ((_ & A) & B); [apply in_map_iff; exists (n, v); auto|]. split; [exact A|]. intros ->. apply B. vm_compute. tauto. }
  destruct SA as (SA & SN).
  assert (AF : Forall (fun p => qname (fst p) /\ xml_chars (snd p)) (pairs_of al)).
  { apply Forall_forall. intros (n, v) I. destruct (AL n v I) as ((A & _) & _ & B). split; assumption. }
  assert (AG : Forall (fun p : bytes * bytes => declares (fst p) = None) (pairs_of al)).
  { apply Forall_forall. intros (n, v) I. apply AD. apply in_map_iff. exists (n, v). auto. }
  assert (Q1 : ncname (txt "revision")) by name_ok. assert (Q2 : ncname (txt "url")) by name_ok.
  assert (Q3 : ncname (txt "version")) by name_ok. assert (Q4 : ncname (txt "options")) by name_ok.
  assert (DC : xml_chars (dec_of (a_tabstop a))) by (apply digits_chars; eapply N.lt_trans; [exact TS|reflexivity]).
  pose proof (options_chars (a_options a)) as OC. unfold root_rest.
  split; [|split; [|split; [|split]]].
  - repeat (apply Forall_app; split); try exact AF.
    + destruct (a_revision a); [constructor; [split; [apply Q1|exact R]|constructor]|constructor].
    + destruct (a_url a); [constructor; [split; [apply Q2|exact U]|constructor]|constructor].
    + destruct (a_version a); [constructor; [split; [apply Q3|exact V]|constructor]|constructor].
    + destruct (N.testbit (a_options a) 2); [constructor; [split; [apply T1|exact DC]|constructor]|constructor].
    + destruct (stored_options (a_options a)); [constructor|constructor; [split; [apply Q4|exact OC]|constructor]].
  - repeat (apply Forall_app; split); try exact AG.
    + destruct (a_revision a); repeat constructor.
    + destruct (a_url a); repeat constructor.
    + destruct (a_version a); repeat constructor.
    + destruct (N.testbit (a_options a) 2); [constructor; [exact T2|constructor]|constructor].
    + destruct (stored_options (a_options a)); repeat constructor.
  - assert (RV : forall k, In k reserved -> ~ In k (map fst (pairs_of al))) by (intros k I F; exact (proj2 (AN k F) I)).
    assert (TN : ~ In t (map fst (pairs_of al))).
    { intros F. destruct T4 as [T4|T4]; [exact (proj2 (proj1 (AN _ F)) T4)|]. rewrite T4 in F. exact (RV (txt "tabs") ltac:(vm_compute; tauto) F). }
    assert (TX : forall k, ~ In 58 k -> k <> txt "tabs" -> k <> t).
    { intros k A B ->. destruct T4 as [T4|T4]; contradiction. }
    assert (S5 : NoDup (map fst (match stored_options (a_options a) with [] => [] | s => [(txt "options", s)] end ++ pairs_of al))).
    { destruct (stored_options (a_options a)); [exact ND|]. cbn [app map fst]. constructor; [apply RV; vm_compute; tauto|exact ND]. }
    assert (I5 : forall k, In k (map fst (match stored_options (a_options a) with [] => [] | s => [(txt "options", s)] end ++ pairs_of al)) -> k = txt "options" \/ In k (map fst (pairs_of al))).
    { intros k I. rewrite map_app in I. apply in_app_or in I. destruct I as [I|I]; [|right; exact I]. destruct (stored_options (a_options a)); [destruct I|]. cbn in I. destruct I as [<-|[]]. left. reflexivity. }
    set (l5 := match stored_options (a_options a) with [] => [] | s => [(txt "options", s)] end ++ pairs_of al) in *. clearbody l5.
    assert (S4 : NoDup (map fst ((if N.testbit (a_options a) 2 then [(t, dec_of (a_tabstop a))] else []) ++ l5))).
    { destruct (N.testbit (a_options a) 2); [|exact S5]. cbn [app map fst]. constructor; [|exact S5]. intros I. apply I5 in I. destruct I as [I|I]; [|contradiction].
      symmetry in I. revert I. apply TX; [vm_compute; intuition discriminate|]. intros F. vm_compute in F. discriminate F. }
    assert (I4 : forall k, In k (map fst ((if N.testbit (a_options a) 2 then [(t, dec_of (a_tabstop a))] else []) ++ l5)) -> k = t \/ k = txt "options" \/ In k (map fst (pairs_of al))).
    { intros k I. rewrite map_app in I. apply in_app_or in I. destruct I as [I|I]; [|right; apply I5, I]. destruct (N.testbit (a_options a) 2); [|destruct I]. destruct I as [<-|[]]. left. reflexivity. }
    set (l4 := (if N.testbit (a_options a) 2 then [(t, dec_of (a_tabstop a))] else []) ++ l5) in *. clearbody l4.
    assert (NI : forall k, In k [txt "revision"; txt "url"; txt "version"] -> ~ In k (map fst l4)).
    { intros k K I. apply I4 in I. destruct I as [I|[I|I]].
      - revert I. destruct K as [<-|[<-|[<-|[]]]]; apply TX; try (vm_compute; intuition discriminate); intros F; vm_compute in F; discriminate F.
      - subst k. destruct K as [F|[F|[F|[]]]]; vm_compute in F; discriminate F.
      - revert I. apply RV. destruct K as [<-|[<-|[<-|[]]]]; vm_compute; tauto. }
    destruct (a_revision a), (a_url a), (a_version a); cbn [given app map fst];
      repeat (apply NoDup_cons; [cbn [In]; intros F; repeat (destruct F as [F|F]; [vm_compute in F; discriminate F|]); revert F; apply NI; cbn [In]; tauto|]); exact S4.
  - rewrite !sax_at_app, SA.
    assert (G : forall n v, ncname n -> n <> txt "xmlns" -> sax_attributes (given n v) = given n v).
    { intros n [v|] (_ & Hn) Hx; [|reflexivity]. apply sax_plain. constructor; [split; assumption|constructor]. }
    rewrite !G by (try assumption; intros F; vm_compute in F; discriminate F). do 3 f_equal. f_equal.
    + destruct (N.testbit (a_options a) 2); [|reflexivity]. cbn [sax_attributes]. rewrite T2, T3. reflexivity.
    + f_equal. destruct (stored_options (a_options a)); reflexivity.
  - rewrite !sax_ns_app, SN.
    assert (G : forall n v, ncname n -> n <> txt "xmlns" -> sax_namespaces (given n v) = []).
    { intros n [v|] (_ & Hn) Hx; [|reflexivity]. apply (sax_plain [(n, v)]). constructor; [split; assumption|constructor]. }
    rewrite !G by (try assumption; intros F; vm_compute in F; discriminate F). cbn [app].
    destruct (N.testbit (a_options a) 2); [cbn [sax_namespaces]; rewrite T2|]; destruct (stored_options (a_options a)); reflexivity.
Qed.
