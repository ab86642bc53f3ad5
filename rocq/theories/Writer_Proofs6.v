(** Proofs about complete units, by element (C22) and from a parse (C21). *)
From Verif Require Import Base Text_Model Text_Spec Text_Proofs Text_Proofs2 Text_Proofs3 Api_Model Api_Proofs Api_Proofs3 Writer_Model Writer_Spec Writer_Proofs Writer_Proofs2 Writer_Proofs3 Writer_Proofs4 Writer_Proofs5.
Local Open Scope N_scope.

(** ** The contents are C strings when the arguments are *)
Definition clean_frame (f : frame) : Prop := clean (f_name f) /\ Forall clean_pair (f_attrs f) /\ Forall clean_pair (f_decls f) /\ clean (xml_all (f_kids f)).
Definition clean_b (b : building) : Prop := Forall clean_frame (fst b) /\ clean (xml_all (snd b)).
Lemma clean_app : forall a b, clean (a ++ b) <-> clean a /\ clean b. Proof. intros. apply no_byte_app. Qed.
Lemma clean_finished : forall f, clean_frame f -> clean (xml (finished f)).
Proof.
  intros f (C1 & C2 & C3 & C4). rewrite xml_finished. rewrite !clean_app. split; [clean_lit|]. split; [exact C1|].
  split; [apply clean_attrs, Forall_app; split; assumption|]. destruct (f_kids f); [clean_lit|]. rewrite !clean_app.
  repeat split; [clean_lit|exact C4|clean_lit|exact C1|clean_lit].
Qed.
Lemma clean_kid : forall b n, clean_b b -> clean (xml n) -> clean_b (add_kid b n).
Proof.
  intros [[|f r] root] n [C1 C2] N; unfold add_kid, clean_b; cbn [fst snd] in *.
  - split; [constructor|]. rewrite xml_all_app, clean_app. split; [exact C2|]. cbn [xml_all flat_map]. rewrite app_nil_r. exact N.
  - split; [|exact C2]. inversion C1 as [|x y (A1 & A2 & A3 & A4) C3]; subst. constructor; [|exact C3]. repeat split; try assumption.
    cbn [f_kids]. rewrite xml_all_app, clean_app. split; [exact A4|]. cbn [xml_all flat_map]. rewrite app_nil_r. exact N.
Qed.
Lemma clean_full : forall p n, clean_opt p -> clean n -> clean (full_name p n).
Proof. intros [p|] n P N; cbn [full_name]; [|exact N]. rewrite !clean_app. repeat split; [exact P|clean_lit|exact N]. Qed.
Lemma clean_decl : forall p, clean_opt p -> clean (decl_name p).
Proof. intros [p|] P; cbn [decl_name]; [rewrite clean_app; split; [clean_lit|exact P]|clean_lit]. Qed.
Lemma clean_call_b : forall b c, clean_b b -> clean_call c -> clean_b (snd (spec_call b c)).
Proof.
  intros [fs root] c [C1 C2] K. destruct c as [p n u| |p u|p n u v|w s]; cbn [spec_call clean_call fst snd] in *.
  - destruct K as (K1 & K2 & K3). destruct (beqb n (txt "unit")); [split; assumption|]. split; [|exact C2]. cbn [snd fst]. constructor; [|exact C1].
    repeat split; cbn [f_name f_attrs f_decls f_kids]; [apply clean_full; assumption|constructor| |constructor].
    destruct u as [u|]; [|constructor]. destruct (beqb u SRC_URI); constructor; [|constructor]. split; [apply clean_decl, K1|exact K3].
  - destruct fs as [|f r]; [split; assumption|]. inversion C1; subst. apply clean_kid; [split; assumption|apply clean_finished; assumption].
  - destruct K as (K1 & K2). destruct fs as [|[q al ds [|k ks]] r]; try (split; assumption). cbn [snd]. split; [|exact C2].
    inversion C1 as [|x y (A1 & A2 & A3 & A4) C3]; subst. constructor; [|exact C3]. repeat split; try assumption.
    apply Forall_app. split; [exact A2|]. constructor; [|constructor]. split; [apply clean_decl, K1|exact K2].
  - destruct K as (K1 & K2 & K3 & K4). destruct n as [|c n']; [split; assumption|]. set (n := c :: n') in *.
    destruct fs as [|[q al ds [|k ks]] r]; try (split; assumption).
    inversion C1 as [|x y (A1 & A2 & A3 & A4) C3]; subst. cbn [f_name f_attrs f_decls f_kids] in *.
    assert (AA : Forall clean_pair (al ++ [(full_name p n, v)])).
    { apply Forall_app. split; [exact A2|]. constructor; [|constructor]. split; [apply clean_full; assumption|exact K4]. }
    destruct u as [u|].
    + destruct (bound (Frame q al ds []) p) as [u'|]; [destruct (beqb u u'); [|split; assumption]|]; (split; [|exact C2]); cbn [snd fst].
      * constructor; [|exact C3]. repeat split; assumption.
      * constructor; [|exact C3]. repeat split; try assumption. cbn [f_decls]. constructor; [split; [apply clean_decl, K1|exact K3]|exact A3].
    + split; [|exact C2]. cbn [snd fst]. constructor; [|exact C3]. repeat split; assumption.
  - apply clean_kid; [split; assumption|]. cbn [xml]. apply clean_escaped, K.
Qed.
Lemma clean_calls_b : forall cs b, clean_b b -> Forall clean_call cs -> clean_b (snd (spec_calls b cs)).
Proof.
  induction cs as [|c cs IH]; intros b B K; [exact B|]. inversion K; subst. cbn [spec_calls snd]. apply IH; [apply clean_call_b|]; assumption.
Qed.
Lemma clean_contents : forall b, clean_b b -> clean (xml_all (contents b)).
Proof.
  intros [fs root] [C1 C2]. unfold contents. cbn [fst snd] in *.
  assert (X : forall fs last, Forall clean_frame fs -> clean (xml_all last) -> clean (xml_all (completed fs last root))).
  { clear fs C1. induction fs as [|f r IH]; intros last F L; cbn [completed].
    - rewrite xml_all_app, clean_app. split; assumption.
    - inversion F as [|x y (A1 & A2 & A3 & A4) F2]; subst. apply IH; [exact F2|]. unfold xml_all. cbn [flat_map]. rewrite app_nil_r.
      apply clean_finished. repeat split; cbn [f_name f_attrs f_decls f_kids]; try assumption. rewrite xml_all_app, clean_app. split; assumption. }
  apply X; [exact C1|constructor].
Qed.

Lemma clean_element : forall a u, usable a u -> clean (unit_element a u).
Proof.
  intros a u (_ & _ & (C0 & _)). unfold unit_element, prefixed.
  assert (P : clean (prefix_at SRC (so_ns (unit_out a u)))).
  { apply clean_prefix_at. rewrite unit_out_ns. apply clean_merge; [apply clean_default|exact C0]. }
  destruct (prefix_at SRC (so_ns (unit_out a u))); [clean_lit|]. rewrite !clean_app. repeat split; [exact P|clean_lit|clean_lit].
Qed.

(** ** By element *)
Lemma by_element_ok : forall extract a u cs, usable a (wu u) -> all_proper ([], []) cs -> Forall clean_call cs ->
  exists u1 u2 u3, write_start_unit a u = Ok (ST_OK, u1) /\
    write_calls u1 cs = Ok (fst (spec_calls ([], []) cs), u2) /\
    write_end_unit extract a u2 = Ok (ST_OK, u3) /\
    let kids := contents (snd (spec_calls ([], []) cs)) in
    uo_srcml (wu u3) = unit_xml (unit_tag a (wu u)) (unit_element a (wu u)) (content_of kids) /\
    uo_content (wu u3) = (Z.of_nat (length (unit_tag a (wu u))) + 1,
                          Z.of_nat (length (unit_tag a (wu u))) + 1 + match kids with [] => 0 | _ => 1 + Z.of_nat (length (xml_all kids)) end)%Z /\
    uo_insert (wu u3) = insert_of a (wu u) /\ uo_read_body (wu u3) = true /\ same_settings (wu u) (wu u3) /\ wu_trans u3 = None /\
    uo_namespaces (wu u3) = Some (unit_namespaces a (wu u)).
Proof.
  intros extract a u cs U P K. pose proof U as (D & PO & CU).
  destruct (start_unit_object a u D PO) as (t & E1 & T & W & NS). eexists. 
  destruct (calls_ok _ _ cs _ _ (WUnitObj (set_content (wu u) (Some (unit_namespaces a (wu u))) (uo_srcml (wu u)) (uo_read_body (wu u)) (uo_src (wu u))
      (Z.of_nat (length (unit_tag a (wu u))) + 1, snd (uo_content (wu u)))%Z (insert_of a (wu u)) (uo_loc (wu u))) (Some t)) T P eq_refl) as (t2 & E2 & T2 & _).
  eexists.
  cbn [wu] in E2.
  match type of E2 with _ = Ok (_, ?x) => set (u2 := x) in * end.
  assert (K2 : clean_b (snd (spec_calls ([], []) cs))) by (apply clean_calls_b; [split; constructor|exact K]).
  destruct (end_unit_object extract a u2 t2 _ _ _ eq_refl T2 eq_refl U (clean_contents _ K2) (clean_element _ _ U))
    as (u3 & E3 & T3 & S3 & C3 & I3 & B3 & SS & NN3 & _).
  exists u3. split; [exact E1|]. split; [exact E2|]. split; [exact E3|]. cbv zeta. split; [exact S3|]. split; [exact C3|].
  split; [exact I3|]. split; [exact B3|]. split; [exact SS|]. split; [exact T3|exact NN3].
Qed.
