From Verif Require Import Base Text_Model Text_Spec Text_Proofs3 Api_Model Api_Spec Api_Proofs Api_Proofs3 Writer_Model Writer_Spec Writer_Proofs2 Writer_Proofs8 Archive_Model Archive_Spec Pretty_Spec Pretty_Proofs2 Root_Model Root_Spec Root_Proofs Root_Proofs2 Root_Proofs3 Root_Proofs4 Root_Proofs5 Root_Proofs6.
Local Open Scope N_scope.

Lemma decl_names : forall a, ns_ok (a_namespaces a) -> N.testbit (a_options a) 14 = true ->
  (forall u p, root_prefix a u = Some p -> forall v, root_prefix a v = Some p -> v = u) -> NoDup (map fst (map ns_attr (root_decls a))).
Proof.
  intros a K A INJ. destruct (root_decls_ok a K A) as (ND & R & _). rewrite map_map.
  assert (J : forall n m, fst (ns_attr n) = fst (ns_attr m) -> ns_prefix n = ns_prefix m).
  { intros n m E. apply (f_equal declares) in E. rewrite !declares_ns in E. destruct (ns_prefix n), (ns_prefix m); try reflexivity; try discriminate E. injection E as E1 E2. subst. reflexivity. }
  induction (root_decls a) as [|n l IH]; [constructor|]. cbn [map] in *. inversion ND as [|x y NI ND']; subst. constructor.
  - intros I. apply in_map_iff in I. destruct I as (m & E & I). apply NI. apply J in E.
    assert (Q : ns_uri m = ns_uri n). { apply (INJ (ns_uri n) (ns_prefix n)); [apply R; left; reflexivity|]. rewrite <- E. apply R. right. exact I. }
    rewrite <- Q. apply in_map, I.
  - apply IH; [exact ND'|]. intros m I. apply R. right. exact I.
Qed.
Lemma src_root : forall a, ns_ok (a_namespaces a) -> root_prefix a SRC_URI = Some (prefix_at SRC (root_namespaces a)).
Proof.
  intros a K. unfold root_prefix. destruct (bytes_dec SRC_URI CPP_URI) as [F|_]; [vm_compute in F; discriminate F|]. destruct (bytes_dec SRC_URI OPENMP_URI) as [F|_]; [vm_compute in F; discriminate F|].
  destruct (bytes_dec SRC_URI POSITION_URI) as [F|_]; [vm_compute in F; discriminate F|]. destruct (bytes_dec SRC_URI ERROR_URI) as [F|_]; [vm_compute in F; discriminate F|].
  unfold prefix_from_uri. destruct K as (ND & _ & S0). destruct (find_uri (a_namespaces a) SRC_URI) as [n|] eqn:E; [|contradiction].
  cbn [option_map]. unfold root_namespaces. rewrite (src_prefix _ _ ND E). reflexivity.
Qed.
Lemma root_reads : forall a al, produced (a, al) -> expressible a al -> N.testbit (a_options a) 14 = true -> N.testbit (a_options a) 8 = true ->
  N.testbit (a_options a) 6 = false -> a_tabstop a < 2 ^ 31 ->
  xml_tag (root_tag a al) (element_name (root_namespaces a)) (map ns_attr (root_decls a) ++ root_rest a (tabs_name a) al) /\
  sax_namespaces (map ns_attr (root_decls a) ++ root_rest a (tabs_name a) al) = map sax_ns (root_decls a) /\
  sax_attributes (map ns_attr (root_decls a) ++ root_rest a (tabs_name a) al) = root_rest a (txt "tabs") al.
Proof.
  intros a al PR EX A14 A8 A6 TS. pose proof (produced_ns_ok _ PR) as K. cbn [fst] in K.
  destruct (root_decls_ok a K A14) as (ND & R1 & R2). pose proof EX as (NS & _ & _ & _ & _ & _ & AL).
  assert (PF : N.testbit (a_options a) 2 = true -> prefix_fine (prefix_at POS (root_namespaces a))).
  { intros P2. rewrite (pos_prefix a K). assert (E : root_prefix a POSITION_URI = Some (default_to (prefix_from_uri a POSITION_URI) (txt "pos"))).
    { unfold root_prefix. destruct (bytes_dec POSITION_URI CPP_URI) as [F|_]; [vm_compute in F; discriminate F|]. destruct (bytes_dec POSITION_URI OPENMP_URI) as [F|_]; [vm_compute in F; discriminate F|].
      destruct (bytes_dec POSITION_URI POSITION_URI) as [_|F]; [|contradiction]. rewrite P2. destruct (prefix_from_uri a POSITION_URI); reflexivity. }
    apply NS in E. apply E. }
  assert (NEQ : Forall (fun p : bytes * bytes => fst p <> []) (pairs_of al)).
  { apply Forall_forall. intros (n, v) I. destruct (AL n v I) as (((X & _) & _) & _). exact X. }
  (* without positions the tabs attribute is not written, so its name does not matter *)
  assert (RO : Forall (fun p => qname (fst p) /\ xml_chars (snd p)) (root_rest a (tabs_name a) al) /\
    Forall (fun p : bytes * bytes => declares (fst p) = None) (root_rest a (tabs_name a) al) /\
    NoDup (map fst (root_rest a (tabs_name a) al)) /\
    sax_attributes (root_rest a (tabs_name a) al) = root_rest a (txt "tabs") al /\ sax_namespaces (root_rest a (tabs_name a) al) = []).
  { destruct (N.testbit (a_options a) 2) eqn:P2; [apply root_rest_ok; auto; exact (tabs_fine a (PF eq_refl))|].
    assert (E : forall t t', root_rest a t al = root_rest a t' al) by (intros; unfold root_rest; rewrite P2; reflexivity).
    rewrite (E (tabs_name a) (txt "tabs")). apply root_rest_ok; [exact EX|exact tabs_plain|exact TS]. }
  destruct RO as (O1 & O2 & O3 & O4 & O5). destruct (sax_decls (root_decls a)) as (SD1 & SD2).
  split; [|split; [rewrite sax_ns_app, SD1, O5; apply app_nil_r|rewrite sax_at_app, SD2, O4; reflexivity]].
  exists (attrs (map ns_attr (root_decls a) ++ root_rest a (tabs_name a) al)). split; [apply root_attrs; assumption|]. split.
  - pose proof (src_root a K) as S1. apply NS in S1. destruct S1 as (PX & _). unfold element_name, prefixed.
    assert (UN : ncname (txt "unit")) by name_ok. assert (CN : Forall name_byte (txt ":unit")) by (cbn; repeat (apply Forall_nil || (apply Forall_cons; [unfold name_byte; lia|]))).
    destruct (prefix_at SRC (root_namespaces a)) as [|c p]; [apply UN|]. destruct PX as [PX|(((_ & PX) & _) & _)]; [discriminate|].
    split; [discriminate|]. apply Forall_app. split; [exact PX|exact CN].
  - apply attrs_read.
    + apply Forall_app. split; [|exact O1]. apply Forall_forall. intros q I. apply in_map_iff in I. destruct I as (n & <- & I).
      destruct (NS _ _ (R1 n I)) as (PX & _ & UT & _). cbn [fst snd ns_attr]. split; [|exact UT].
      destruct (ns_prefix n) as [|c p]; [split; [discriminate|]; cbn; repeat (apply Forall_nil || (apply Forall_cons; [unfold name_byte; lia|]))|].
      destruct PX as [PX|(((_ & PX) & _) & _)]; [discriminate|]. split; [discriminate|]. apply Forall_app. split; [|exact PX].
      cbn; repeat (apply Forall_nil || (apply Forall_cons; [unfold name_byte; lia|])).
    + rewrite map_app. apply NoDup_app_disj; [apply decl_names; auto; intros u p Q; apply (NS u p Q)|exact O3|].
      intros x I J. apply in_map_iff in I. destruct I as (q & <- & I). apply in_map_iff in I. destruct I as (n & <- & I).
      apply in_map_iff in J. destruct J as (q & E & J). pose proof (proj1 (Forall_forall _ _) O2 q J) as D0. cbn beta in D0. rewrite E, declares_ns in D0. discriminate D0.
Qed.
Lemma root_restored : forall b a al a0 al0, produced (a, al) -> expressible a al -> N.testbit (a_options a) 14 = true -> N.testbit (a_options a) 8 = true ->
  N.testbit (a_options a) 6 = false -> a_tabstop a < 2 ^ 31 ->
  exists name l, xml_tag (root_tag a al) name l /\ restored b a al a0 al0 (start_root b (sax_namespaces l) (sax_attributes l) (a0, al0)).
Proof.
  intros b a al a0 al0 PR EX A14 A8 A6 TS. destruct (root_reads a al PR EX A14 A8 A6 TS) as (XT & SN & SA).
  eexists _, _. split; [exact XT|]. rewrite SN, SA. unfold start_root. cbn [fst snd].
  set (a1 := if b then a0 else with_options a0 (N.ldiff (a_options a0) OPT_ARCHIVE)).
  rewrite (fold_rest a al a1 al0 EX TS). cbn [fst snd].
  pose proof (produced_ns_ok _ PR) as K. cbn [fst] in K. destruct (root_decls_ok a K A14) as (ND & R1 & R2).
  destruct (namespaces_fold (root_decls a) (read_archive a a1) ND) as (F1 & F2 & F3).
  { apply Forall_forall. intros n I. exact (proj1 (proj2 (proj2 (proj2 (proj1 EX _ _ (R1 n I)))))). }
  cbv zeta in F1, F2, F3. set (a' := fold_left root_namespace _ _) in *. clearbody a'.
  assert (FD : forall u, option_map ns_prefix (find_uri (root_decls a) u) = root_prefix a u).
  { intros u. destruct (find_uri (root_decls a) u) as [n|] eqn:E.
    - apply find_uri_some in E. destruct E as (I & <-). cbn [option_map]. symmetry. apply R1, I.
    - destruct (root_prefix a u) as [p|] eqn:Q; [|reflexivity]. destruct (R2 u p Q) as (n & I & U & _). apply find_uri_none in E. exfalso. apply E. rewrite <- U. apply in_map, I. }
  assert (R0 : rest_of (read_archive a a1) = rest_of (read_archive a a0)) by (unfold a1; destruct b; reflexivity).
  rewrite R0 in F1. unfold rest_of in F1. cbn [read_archive a_src_encoding a_encoding a_language a_url a_version a_revision a_tabstop a_pi a_extensions a_macros a_revision_number] in F1.
  injection F1 as G1 G2 G3 G4 G5 G6 G7 G8 G9 G10 G11.
  unfold restored. cbn [fst snd get_attr]. repeat split; try assumption.
  - intros u. rewrite F2, <- FD. destruct (find_uri (root_decls a) u); [reflexivity|]. cbn [option_map or_else]. unfold a1. destruct b; reflexivity.
  - intros i. rewrite F3. unfold read_archive at 1. cbn [a_options]. rewrite options_read.
    assert (Q1 : N.testbit (a_options a1) i = if (i =? 14) && negb b then false else N.testbit (a_options a0) i).
    { unfold a1. destruct b; cbn [negb]; [rewrite andb_false_r; reflexivity|]. rewrite andb_true_r. cbn [with_options a_options]. rewrite N.ldiff_spec. unfold OPT_ARCHIVE. rewrite pow2_bit.
      rewrite (N.eqb_sym i 14). destruct (14 =? i); cbn [negb]; [apply andb_false_r|apply andb_true_r]. }
    rewrite Q1, <- orb_assoc. f_equal. clear Q1.
    assert (H0 : forall u o, root_prefix a u = (if o : bool then or_else (prefix_from_uri a u) (Some (txt "pos")) else None) \/ root_prefix a u = (if o then or_else (prefix_from_uri a u) (Some (txt "err")) else None) ->
      match find_uri (root_decls a) u with Some _ => true | None => false end = o).
    { intros u o H. specialize (FD u). destruct (find_uri (root_decls a) u); cbn [option_map] in FD; rewrite <- FD in H; destruct o, (prefix_from_uri a u); cbn [or_else] in H; destruct H as [H|H]; try reflexivity; discriminate H. }
    assert (HP : match find_uri (root_decls a) POSITION_URI with Some _ => true | None => false end = N.testbit (a_options a) 2).
    { apply H0. left. unfold root_prefix. destruct (bytes_dec POSITION_URI CPP_URI) as [F|_]; [vm_compute in F; discriminate F|]. destruct (bytes_dec POSITION_URI OPENMP_URI) as [F|_]; [vm_compute in F; discriminate F|].
      destruct (bytes_dec POSITION_URI POSITION_URI) as [_|F]; [reflexivity|contradiction]. }
    assert (HE : match find_uri (root_decls a) ERROR_URI with Some _ => true | None => false end = N.testbit (a_options a) 11).
    { apply H0. right. unfold root_prefix. destruct (bytes_dec ERROR_URI CPP_URI) as [F|_]; [vm_compute in F; discriminate F|]. destruct (bytes_dec ERROR_URI OPENMP_URI) as [F|_]; [vm_compute in F; discriminate F|].
      destruct (bytes_dec ERROR_URI POSITION_URI) as [F|_]; [vm_compute in F; discriminate F|]. destruct (bytes_dec ERROR_URI ERROR_URI) as [_|F]; [reflexivity|contradiction]. }
    assert (HC : match find_uri (root_decls a) CPP_URI with Some _ => true | None => false end = false).
    { specialize (FD CPP_URI). destruct (find_uri (root_decls a) CPP_URI); [|reflexivity]. unfold root_prefix in FD. destruct (bytes_dec CPP_URI CPP_URI) as [_|F]; [discriminate FD|contradiction]. }
    rewrite HP, HE, HC. clear.
    destruct i as [|[[[[]|[]|]|[[]|[]|]|]|[[[]|[]|]|[[]|[]|]|]|]]; cbn; rewrite ?orb_false_r; reflexivity.
Qed.

(** ** macros *)
Lemma macro_restored : forall tok typ a, tok <> [] -> typ <> [] -> xml_chars tok -> xml_chars typ ->
  exists l, xml_tag (txt "<macro-list" ++ attrs [(txt "token", tok); (txt "type", typ)]) (txt "macro-list") l /\
    a_macros (meta_tag (txt "macro-list") (sax_attributes l) a) = a_macros a ++ [tok; typ].
Proof.
  intros tok typ a N1 N2 X1 X2. exists [(txt "token", tok); (txt "type", typ)].
  assert (Q1 : ncname (txt "token")) by name_ok. assert (Q2 : ncname (txt "type")) by name_ok. assert (Q3 : ncname (txt "macro-list")) by name_ok. split.
  - exists (attrs [(txt "token", tok); (txt "type", typ)]). split; [reflexivity|]. split; [apply Q3|].
    apply attrs_read; [constructor; [split; [apply Q1|exact X1]|constructor; [split; [apply Q2|exact X2]|constructor]]|].
    cbn [map fst]. constructor; [intros [F|[]]; vm_compute in F; discriminate F|constructor; [intros []|constructor]].
  - assert (SX : sax_attributes [(txt "token", tok); (txt "type", typ)] = [(txt "token", tok); (txt "type", typ)]) by reflexivity. rewrite SX. unfold meta_tag.
    assert (V1 : values_of (txt "token") [(txt "token", tok); (txt "type", typ)] = tok) by (unfold values_of; cbn; apply app_nil_r).
    assert (V2 : values_of (txt "type") [(txt "token", tok); (txt "type", typ)] = typ) by (unfold values_of; cbn; apply app_nil_r).
    destruct (beqb (txt "macro-list") (txt "macro-list")) eqn:E; [|vm_compute in E; discriminate E]. rewrite V1, V2.
    destruct tok; [contradiction|]. destruct typ; [contradiction|]. reflexivity.
Qed.

Lemma macros_restored : forall ms a, Forall (fun p => fst p <> [] /\ snd p <> [] /\ xml_chars (fst p) /\ xml_chars (snd p)) ms ->
  exists ls, Forall2 (fun p l => exists tag, macro_xml p = tag ++ txt "/>" /\ xml_tag tag (txt "macro-list") l) ms ls /\
    a_macros (fold_left (fun a l => meta_tag (txt "macro-list") (sax_attributes l) a) ls a) = a_macros a ++ flat_map (fun p => [fst p; snd p]) ms.
Proof.
  induction ms as [|(t, y) ms IH]; intros a F; [exists []; split; [constructor|cbn; symmetry; apply app_nil_r]|].
  destruct (Forall_inv F) as (A & B & C & D). cbn [fst snd] in *. destruct (macro_restored t y a A B C D) as (l & X & M).
  destruct (IH (meta_tag (txt "macro-list") (sax_attributes l) a) (Forall_inv_tail F)) as (ls & G & H).
  exists (l :: ls). split.
  - constructor; [|exact G]. exists (txt "<macro-list" ++ attrs [(txt "token", t); (txt "type", y)]). split; [|exact X].
    unfold macro_xml. cbn [fst snd]. rewrite <- app_assoc. reflexivity.
  - cbn [fold_left]. rewrite H, M, <- app_assoc. reflexivity.
Qed.

(** ** what is not restored *)
Ltac chars_ok := unfold xml_chars; cbn; repeat (apply Forall_nil || (apply Forall_cons; [left; vm_compute; discriminate|])).
Lemma chars_src : xml_chars SRC_URI. Proof. unfold SRC_URI. chars_ok. Qed.
Lemma chars_version : xml_chars VERSION_STRING. Proof. unfold VERSION_STRING. chars_ok. Qed.
Lemma chars_utf8 : xml_chars (txt "UTF-8"). Proof. chars_ok. Qed.
Lemma store_encoding_twice : exists a al,
  produced (a, al) /\ expressible a [] /\ N.testbit (a_options a) 6 = true /\ al = [txt "src-encoding"; txt "UTF-8"] /\
  forall name l, ~ xml_tag (root_tag a al) name l.
Proof.
  set (a := snd (step archive_create (EnableOption (2 ^ 6)))).
  exists (fst (start_root true [(None, SRC_URI)] [(txt "src-encoding", txt "UTF-8")] (a, []))), [txt "src-encoding"; txt "UTF-8"].
  split; [|split; [|split; [|split]]].
  - change (produced (start_root true [(None, SRC_URI)] [(txt "src-encoding", txt "UTF-8")] (a, []))). apply produced_root. unfold a. apply produced_call, produced_new.
  - split.
    + intros u p Q.
      assert (X : forall u p, root_prefix (fst (start_root true [(None, SRC_URI)] [(txt "src-encoding", txt "UTF-8")] (a, []))) u = Some p -> u = SRC_URI /\ p = []).
      { clear. intros u p Q. unfold root_prefix in Q. destruct (bytes_dec u CPP_URI); [discriminate|]. destruct (bytes_dec u OPENMP_URI); [discriminate|].
        destruct (bytes_dec u POSITION_URI); [vm_compute in Q; discriminate|]. destruct (bytes_dec u ERROR_URI); [vm_compute in Q; discriminate|].
        unfold prefix_from_uri in Q. change (a_namespaces (fst (start_root true [(None, SRC_URI)] [(txt "src-encoding", txt "UTF-8")] (a, [])))) with [Ns [] SRC_URI 17] in Q.
        cbn [find_uri ns_uri] in Q. rewrite beqb_dec in Q. destruct (bytes_dec SRC_URI u) as [<-|]; [|discriminate]. injection Q as <-. auto. }
      destruct (X u p Q) as (-> & ->). split; [left; reflexivity|]. split; [intros F; vm_compute in F; discriminate F|]. split.
      * exact chars_src.
      * split; [vm_compute; reflexivity|]. intros v Qv. apply (X v [] Qv).
    + split; [exact chars_version|]. split; [exact Logic.I|]. split; [exact Logic.I|]. split; [constructor|]. split; [reflexivity|]. cbn [pairs_of In]. tauto.
  - vm_compute. reflexivity.
  - reflexivity.
  - intros name l X.
    set (a1 := fst (start_root true [(None, SRC_URI)] [(txt "src-encoding", txt "UTF-8")] (a, []))) in *.
    assert (E1 : root_tag a1 [txt "src-encoding"; txt "UTF-8"] = [60] ++ txt "unit" ++ attrs [(txt "xmlns", SRC_URI); (txt "revision", VERSION_STRING); (txt "src-encoding", txt "UTF-8"); (txt "src-encoding", txt "UTF-8")]) by (vm_compute; reflexivity).
    rewrite E1 in X. clear E1.
    assert (N0 : ncname (txt "unit")) by name_ok. assert (N1 : ncname (txt "xmlns")) by name_ok. assert (N2 : ncname (txt "revision")) by name_ok. assert (N3 : ncname (txt "src-encoding")) by name_ok.
    apply tag_inv in X.
    + destruct X as (_ & _ & X). cbn [map fst] in X. apply NoDup_cons_iff in X. destruct X as (_ & X). apply NoDup_cons_iff in X. destruct X as (_ & X).
      apply NoDup_cons_iff in X. destruct X as (X & _). apply X. left. reflexivity.
    + apply N0.
    + constructor; [split; [apply N1|exact chars_src]|]. constructor; [split; [apply N2|exact chars_version]|].
      constructor; [split; [apply N3|exact chars_utf8]|]. constructor; [split; [apply N3|exact chars_utf8]|]. constructor.
Qed.
