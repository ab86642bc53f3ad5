From Verif Require Import Base Text_Model Text_Spec Text_Proofs3 Api_Model Api_Spec Api_Proofs Api_Proofs3 Writer_Model Writer_Spec Writer_Proofs2 Writer_Proofs8 Archive_Model Archive_Spec Pretty_Spec Pretty_Proofs2 Root_Model Root_Spec Root_Proofs Root_Proofs2 Root_Proofs3 Root_Proofs4 Root_Proofs5 Root_Proofs6 Root_Proofs7.
Local Open Scope N_scope.

(** ** a way to see that concrete settings are expressible *)
Definition byte_ok (c : N) : bool := (33 <=? c) && negb (existsb (N.eqb c) [34; 38; 39; 47; 58; 60; 61; 62]).
Definition nc_b (n : bytes) : bool := negb (beqb n []) && forallb byte_ok n.
Definition chars_b (v : bytes) : bool := forallb (fun c => (32 <=? c) || (c =? 9) || (c =? 10) || (c =? 13)) v.
Definition decl_b (n : ns) : bool :=
  (beqb (ns_prefix n) [] || nc_b (ns_prefix n) && negb (beqb (ns_prefix n) (txt "xmlns")) && negb (beqb (ns_prefix n) (txt "xml"))) &&
  negb (beqb (ns_uri n) []) && chars_b (ns_uri n) && beqb (uri_normalize (ns_uri n)) (ns_uri n).
Fixpoint distinct (l : list bytes) : bool := match l with [] => true | x :: l => negb (existsb (beqb x) l) && distinct l end.
Definition opt_b (v : option bytes) : bool := match v with Some v => chars_b v | None => true end.
Definition expressible_b (a : archive) (al : list bytes) : bool :=
  forallb decl_b (root_decls a) && distinct (map ns_prefix (root_decls a)) && opt_b (a_revision a) && opt_b (a_url a) && opt_b (a_version a) &&
  distinct (map fst (pairs_of al)) && Nat.even (length al) &&
  forallb (fun p => nc_b (fst p) && negb (existsb (beqb (fst p)) reserved) && chars_b (snd p)) (pairs_of al).
Lemma nc_b_ok : forall n, nc_b n = true -> ncname n.
Proof.
  intros n H. apply andb_prop in H. destruct H as (A & B). apply ncname_txt.
  - apply Forall_forall. intros c I. exact (proj1 (forallb_forall _ _) B c I).
  - intros ->. discriminate A.
Qed.
Lemma chars_b_ok : forall v, chars_b v = true -> xml_chars v.
Proof.
  intros v H. apply Forall_forall. intros c I. pose proof (proj1 (forallb_forall _ _) H c I) as Q. cbn beta in Q.
  repeat (apply orb_prop in Q; destruct Q as [Q|Q]); [apply N.leb_le in Q|apply N.eqb_eq in Q|apply N.eqb_eq in Q|apply N.eqb_eq in Q]; lia.
Qed.
Lemma distinct_ok : forall l, distinct l = true -> NoDup l.
Proof.
  induction l as [|x l IH]; intros H; [constructor|]. cbn in H. apply andb_prop in H. destruct H as (A & B). constructor; [|apply IH, B].
  intros I. apply negb_true_iff in A. assert (E : existsb (beqb x) l = true) by (apply existsb_exists; exists x; split; [exact I|apply beqb_refl]). congruence.
Qed.
Lemma expressible_ok : forall a al, produced (a, al) -> N.testbit (a_options a) 14 = true -> expressible_b a al = true -> expressible a al.
Proof.
  intros a al PR A14 H. unfold expressible_b in H. 
  apply andb_prop in H; destruct H as (H & J). apply andb_prop in H; destruct H as (H & J0). apply andb_prop in H; destruct H as (H & J1).
  apply andb_prop in H; destruct H as (H & J2). apply andb_prop in H; destruct H as (H & J3). apply andb_prop in H; destruct H as (H & J4). apply andb_prop in H; destruct H as (H & J5).
  pose proof (produced_ns_ok _ PR) as K. cbn [fst] in K. destruct (root_decls_ok a K A14) as (ND & R1 & R2). apply distinct_ok in J5.
  assert (O : forall v, opt_b v = true -> xml_chars_opt v) by (intros [v|] Q; [exact (chars_b_ok v Q)|exact Logic.I]).
  split; [|split; [apply O, J4|split; [apply O, J3|split; [apply O, J2|split; [apply distinct_ok, J1|split; [exact J0|]]]]]].
  - intros u p Q. destruct (R2 u p Q) as (n & I & <- & <-). pose proof (proj1 (forallb_forall _ _) H n I) as D.
    unfold decl_b in D. apply andb_prop in D. destruct D as (D & D4). apply andb_prop in D. destruct D as (D & D3). apply andb_prop in D. destruct D as (D1 & D2).
    split; [|split; [|split; [|split]]].
    + apply orb_prop in D1. destruct D1 as [D1|D1]; [left; exact (proj1 (beqb_true _ _) D1)|right]. apply andb_prop in D1. destruct D1 as (D1 & Dx). apply andb_prop in D1. destruct D1 as (D1 & Dy).
      split; [apply nc_b_ok, D1|]. split; intros E; rewrite E in *; [rewrite beqb_refl in Dy; discriminate Dy|rewrite beqb_refl in Dx; discriminate Dx].
    + intros E. rewrite E in D2. discriminate D2.
    + apply chars_b_ok, D3.
    + exact (proj1 (beqb_true _ _) D4).
    + intros v Qv. destruct (R2 v _ Qv) as (m & Im & <- & E). f_equal. clear -J5 I Im E.
      induction (root_decls a) as [|x l IH]; [destruct I|]. cbn [map] in J5. inversion J5 as [|y z NI ND]; subst.
      destruct I as [->|I], Im as [->|Im]; [reflexivity| | |apply IH; assumption]; exfalso; apply NI.
      * rewrite <- E. apply in_map, Im.
      * rewrite E. apply in_map, I.
  - intros n v I. pose proof (proj1 (forallb_forall _ _) J _ I) as D. cbn [fst snd] in D. apply andb_prop in D. destruct D as (D & D3). apply andb_prop in D. destruct D as (D1 & D2).
    split; [apply nc_b_ok, D1|]. split; [|apply chars_b_ok, D3].
    intros I2. apply negb_true_iff in D2. assert (E : existsb (beqb n) reserved = true) by (apply existsb_exists; exists n; split; [exact I2|apply beqb_refl]). congruence.
Qed.
Lemma produced_run : forall h, produced (run h archive_create, []).
Proof.
  assert (G : forall h a, produced (a, []) -> produced (run h a, [])).
  { induction h as [|c h IH]; intros a P; [exact P|]. cbn [run fold_left]. apply IH, produced_call, P. }
  intros h. apply G, produced_new.
Qed.

Lemma cpp_prefix_lost : exists h p, let a := run h archive_create in
  prefix_from_uri a CPP_URI = Some p /\ expressible a [] /\ N.testbit (a_options a) 8 = true /\ (exists name l, xml_tag (root_tag a []) name l) /\
  forall name l, xml_tag (root_tag a []) name l -> prefix_from_uri (fst (start_root true (sax_namespaces l) (sax_attributes l) (archive_create, []))) CPP_URI = None.
Proof.
  set (h := [RegisterNamespace (Some (txt "c")) (Some CPP_URI)]). exists h, (txt "c"). set (a := run h archive_create). cbv zeta.
  assert (EX : expressible a []) by (apply expressible_ok; [apply produced_run|vm_compute; reflexivity|vm_compute; reflexivity]).
  assert (H1 : N.testbit (a_options a) 14 = true) by (vm_compute; reflexivity). assert (H2 : N.testbit (a_options a) 8 = true) by (vm_compute; reflexivity).
  assert (H3 : N.testbit (a_options a) 6 = false) by (vm_compute; reflexivity). assert (H4 : a_tabstop a < 2 ^ 31) by (vm_compute; reflexivity).
  destruct (root_restored true a [] archive_create [] (produced_run h) EX H1 H2 H3 H4) as (name & l & XT & RS).
  split; [vm_compute; reflexivity|]. split; [exact EX|]. split; [vm_compute; reflexivity|]. split; [exists name, l; exact XT|].
  intros name' l' XT'. destruct (xml_tag_unique _ _ _ _ _ XT XT') as (<- & <-).
  destruct RS as (_ & _ & _ & _ & P & _). rewrite P. vm_compute. reflexivity.
Qed.
Lemma set_options_undeclared : forall o, exists name l, let a := run [SetOptions o] archive_create in
  N.testbit o 2 = false -> N.testbit o 4 = false -> N.testbit o 5 = false -> N.testbit o 6 = false ->
  root_tag a [] = [60] ++ txt "unit" ++ attrs l /\ xml_tag (root_tag a []) name l /\ sax_namespaces l = [].
Proof.
  intros o. exists (txt "unit"), [(txt "revision", VERSION_STRING)]. cbv zeta. intros B2 B4 B5 B6.
  assert (E : root_tag (run [SetOptions o] archive_create) [] = [60] ++ txt "unit" ++ attrs [(txt "revision", VERSION_STRING)]).
  { unfold root_tag, start_tag, tag_attrs, unit_attrs. cbn [so_options so_ns so_depth so_tabs tag_settings g_language g_revision g_url g_filename g_version g_timestamp g_hash g_encoding g_attributes given app].
    change (a_options (run [SetOptions o] archive_create)) with (u64 o mod 2 ^ 7). unfold stored_options, opt, u64, B_NAMESPACE_DECL, B_POSITION, B_STORE_ENCODING, B_CPP_TEXT_ELSE, B_CPP_MARKUP_IF0, B_LINE.
    assert (HI : forall i, 7 <= i -> N.testbit ((o mod 2 ^ 64) mod 2 ^ 7) i = false) by (intros i L; apply N.mod_pow2_bits_high, L).
    assert (LO : forall i, i < 7 -> N.testbit ((o mod 2 ^ 64) mod 2 ^ 7) i = N.testbit o i).
    { intros i L. rewrite N.mod_pow2_bits_low by exact L. apply N.mod_pow2_bits_low. lia. }
    cbv zeta beta. rewrite (HI 8), (HI 10), (LO 2), (LO 4), (LO 5), (LO 6) by lia. rewrite B2, B4, B5, B6. vm_compute. reflexivity. }
  split; [exact E|]. split; [|reflexivity]. rewrite E. eexists. split; [reflexivity|].
  assert (N0 : ncname (txt "unit")) by name_ok. assert (N2 : ncname (txt "revision")) by name_ok. split; [apply N0|].
  apply attrs_read; [constructor; [split; [apply N2|exact chars_version]|constructor]|]. constructor; [intros []|constructor].
Qed.
Lemma empty_macro_lost : forall tok a, xml_chars tok -> exists l,
  xml_tag (txt "<macro-list" ++ attrs [(txt "token", tok); (txt "type", [])]) (txt "macro-list") l /\ meta_tag (txt "macro-list") (sax_attributes l) a = a.
Proof.
  intros tok a X. exists [(txt "token", tok); (txt "type", [])].
  assert (Q1 : ncname (txt "token")) by name_ok. assert (Q2 : ncname (txt "type")) by name_ok. assert (Q3 : ncname (txt "macro-list")) by name_ok. split.
  - exists (attrs [(txt "token", tok); (txt "type", [])]). split; [reflexivity|]. split; [apply Q3|].
    apply attrs_read; [constructor; [split; [apply Q1|exact X]|constructor; [split; [apply Q2|constructor]|constructor]]|].
    cbn [map fst]. constructor; [intros [F|[]]; vm_compute in F; discriminate F|constructor; [intros []|constructor]].
  - assert (SX : sax_attributes [(txt "token", tok); (txt "type", [])] = [(txt "token", tok); (txt "type", [])]) by reflexivity. rewrite SX. unfold meta_tag.
    assert (V2 : values_of (txt "type") [(txt "token", tok); (txt "type", [])] = []) by reflexivity. rewrite V2.
    destruct (beqb (txt "macro-list") (txt "macro-list")); [|reflexivity]. destruct (values_of (txt "token") _); reflexivity.
Qed.
