(** The document of an archive is read back unit by unit. *)
From Verif Require Import Base Text_Model Text_Spec Text_Proofs Text_Proofs3 Api_Model Api_Spec Api_Proofs Api_Proofs3 Writer_Model Writer_Spec Writer_Proofs2 Writer_Proofs3 Writer_Proofs7 Writer_Proofs8 Archive_Model Archive_Spec Archive_Proofs4 Archive_Declared Root_Model Root_Spec Root_Proofs Root_Proofs2 Root_Proofs3 Root_Proofs5 Root_Proofs7 Source_Model Source_Spec Source_Proofs Source_Proofs2 Source_Proofs3 Source_Proofs4 Whole_Spec Whole_Tags Whole_Names Whole_Reads Whole_Unit Declared_Spec.
Local Open Scope N_scope.

Lemma language_chars : forall l, xml_chars (getLanguageString l).
Proof.
  intros l. unfold getLanguageString, lang2int. cbn [find_by_number fst snd].
  repeat match goal with |- context [if ?b then _ else _] => destruct b end;
    repeat (constructor; [left; vm_compute; discriminate|]); try constructor.
Qed.
Lemma same_fine : forall l l', same_names l l' -> Forall fine_ns l' -> Forall fine_ns l.
Proof.
  intros l l' S F. apply Forall_forall. intros n I. destruct (names_in _ _ n S I) as (k & K & P & U). rewrite Forall_forall in F. specialize (F k K). unfold fine_ns in *. rewrite P, U in F. exact F.
Qed.
Lemma same_prefixes : forall l l', same_names l l' -> map ns_prefix l = map ns_prefix l'.
Proof. intros l l' S. unfold same_names in S. apply (f_equal (map fst)) in S. rewrite !map_map in S. exact S. Qed.
Lemma out_fine : forall a al d l, fine_archive a al -> same_names l (root_namespaces a) -> fine_out (tag_settings a d l).
Proof.
  intros a al d l F S. destruct F as [F1 F2 (_ & _ & _ & F3) _ _]. split; [|split]; cbn [tag_settings so_ns so_tabs].
  - exact (same_fine _ _ S F1).
  - rewrite (same_prefixes _ _ S). exact F2.
  - apply digits_chars. eapply N.lt_trans; [exact F3|]. reflexivity.
Qed.
Lemma root_fine : forall a al, fine_archive a al -> fine_out (tag_settings a 0 (root_namespaces a)) /\
  fine_args (TagArgs None (a_revision a) (a_url a) None (a_version a) None None None al true).
Proof.
  intros a al F. split; [apply (out_fine a al); [exact F|reflexivity]|]. destruct F as [_ _ (F1 & F2 & F3 & _) (F4 & F5) _]. unfold fine_args. cbn. auto 12.
Qed.
Lemma fresh_out : forall a u lang encoding, uo_namespaces u = None -> so_ns (unit_out a (parse_start a u lang encoding)) = root_namespaces a.
Proof. intros a u lang encoding N0. rewrite unit_out_ns. unfold unit_namespaces. change (uo_namespaces (parse_start a u lang encoding)) with (uo_namespaces u). rewrite N0. reflexivity. Qed.
(** what the hypotheses on a parsed unit give *)
Lemma parsed_facts : forall extract a al x ts s, a_revision_number a = None -> NoDup (map ns_uri (a_namespaces a)) -> fine_archive a al -> parsed_in extract a x ts s ->
  let v := snd (fst x) in fst x = (a, v) /\ snd x = nonempty (flat_map (tree_xml (fun i => prefix_at i (root_namespaces a))) ts) /\
  same_names (all_namespaces a v) (root_namespaces a) /\ fine_args (in_archive_args a a v).
Proof.
  intros extract a al x ts s RN ND FA (u & lang & encoding & hash & v & N0 & U & H & FU & SH & P & X & GU) v'. subst v'. rewrite X. cbn [fst snd]. split; [reflexivity|].
  destruct (parse_ok_all extract a u lang encoding hash ts U H (shows_good _ _ SH)) as (w & E & _ & _ & _ & _ & SS & _ & (l & NL & GR & _) & _).
  rewrite P in E. injection E as <-.
  split; [|split].
  - destruct (parsed_good extract a u lang encoding hash ts U H (shows_good _ _ SH) RN) as (w & E & GW). rewrite P in E. injection E as <-.
    destruct GU as ((b & I & S) & _), GW as ((b' & I' & S') & _). rewrite X in *. cbn [fst snd] in *. rewrite I in I'. injection I' as <-.
    unfold selects_revision in *. rewrite RN in *. rewrite S, <- S'.
    change (prefix_of a (parse_start a (wu u) lang encoding)) with (fun i => prefix_at i (so_ns (unit_out a (parse_start a (wu u) lang encoding)))). rewrite fresh_out by exact N0. reflexivity.
  - unfold all_namespaces. rewrite NL, RN. apply merged_names; [exact ND|]. eapply names_trans; [apply grows_names, GR|]. unfold unit_namespaces.
    change (uo_namespaces (set_parse_start (wu u) lang (a_url a) encoding)) with (uo_namespaces (wu u)). rewrite N0. reflexivity.
  - destruct SS as (_ & S1 & S2 & S3 & S4 & S5). destruct FU as (_ & _ & F1 & F2 & F3 & (F4 & F5 & F6 & F7 & F8 & F9) & _ & F10 & F11).
    destruct FA as [_ _ (A1 & A2 & A3 & _) _ _]. change (set_reader_result (set_parse_start (wu u) lang (a_url a) encoding) hash encoding) with (parse_end a (wu u) lang encoding hash) in *.
    unfold fine_args, in_archive_args. cbn [g_language g_revision g_url g_filename g_version g_timestamp g_hash g_encoding g_attributes]. rewrite S1, S2, S3, S4, RN.
    assert (RA : forall o, xml_chars_opt o -> xml_chars_opt (rev_attr None o)) by (intros [o|] C; exact C).
    split; [destruct (u_language _); [exact F4|apply language_chars]|].
    split; [destruct (is_archive a); [destruct (uo_revision _)|]; assumption|].
    split; [destruct (is_archive a); [exact I|apply RA; exact F3]|]. repeat (split; [apply RA; assumption|]). split; assumption.
Qed.

Definition unit_part (a : archive) (al : list bytes) (x : archive * uobj * option bytes) (ts : list tree) (s : bytes) : Prop :=
  exists e, unit_is a (member_attrs a (snd (fst x))) ts s e /\
    forall m st rest l, reads ((m, sax_namespaces (root_attrs a al)) :: st) rest l -> reads ((m, sax_namespaces (root_attrs a al)) :: st) (unit_doc a 1 x ++ rest) (e ++ l).
Lemma src_declared : forall a al, produced (a, al) -> N.testbit (a_options a) 14 = true -> N.testbit (a_options a) 8 = true ->
  In (declaration (prefix_at SRC (root_namespaces a)) SRC_URI) (root_attrs a al).
Proof. intros a al PR A D. pose proof (produced_ns_ok _ PR) as K. cbn [fst] in K. apply on_root; try assumption. apply src_root, K. Qed.
Lemma fine_prefix : forall l i, Forall fine_ns l -> prefix_name (prefix_at i l).
Proof.
  intros l i F. unfold prefix_at. destruct (nth_error l i) as [n|] eqn:E; [|left; reflexivity]. apply nth_error_In in E. rewrite Forall_forall in F. destruct (F n E) as ([P|(P1 & P2 & _)] & _); [left; exact P|right; split; assumption].
Qed.
Lemma same_at : forall l l' i, same_names l l' -> prefix_at i l = prefix_at i l'.
Proof.
  intros l l' i S. unfold prefix_at. unfold same_names in S. pose proof (f_equal (fun x => nth_error x i) S) as E. cbv beta in E. rewrite !nth_error_map in E.
  destruct (nth_error l i), (nth_error l' i); cbn in E; congruence.
Qed.
Lemma told_uri : forall uri uri' ts b, told uri ts b -> (forall i, any_uses i ts -> uri i = uri' i) -> told uri' ts b.
Proof.
  intros uri uri' ts b T. induction T as [|s ts l T IH|i n al ts l T IH|i n al pl kids k ts l TK IHK T IH]; intros H.
  - constructor.
  - constructor. apply IH. intros i I. apply H. right. exact I.
  - rewrite (H i (or_introl eq_refl)). constructor. apply IH. intros j I. apply H. right. exact I.
  - rewrite (H i (or_introl (or_introl eq_refl))). constructor; [apply IHK|apply IH; intros j I; apply H; right; exact I].
    intros j I. apply H. left. right. clear -I. induction kids as [|t kids IHk]; [exact I|]. destruct I as [I|I]; [left; exact I|right; apply IHk, I].
Qed.
Lemma member_told : forall extract a al x ts s, produced (a, al) -> a_revision_number a = None -> N.testbit (a_options a) 14 = true -> N.testbit (a_options a) 8 = true ->
  fine_archive a al -> parsed_in extract a x ts s -> unit_part a al x ts s.
Proof.
  intros extract a al x ts s PR RN A D FA PI. pose proof (produced_ns_ok _ PR) as K. cbn [fst] in K.
  destruct (parsed_facts extract a al x ts s RN (proj1 K) FA PI) as (X & C & SN & FG). set (v := snd (fst x)) in *.
  destruct (root_fine a al FA) as (RO & RG). assert (MO := out_fine a al 1 _ FA SN).
  assert (SRC0 := src_declared a al PR A D).
  destruct PI as (u & lang & encoding & hash & w & N0 & U & H & FU & SH & P & XW & GU). rewrite X in XW. injection XW as V. unfold unit_part. fold v. rewrite V in *.
  set (pre := fun i => prefix_at i (root_namespaces a)) in *.
  destruct (unit_told (tag_settings a 1 (all_namespaces a (wu w))) (in_archive_args a a (wu w)) pre ts s (sax_namespaces (root_attrs a al)) MO FG SH) as (b & TB & EX & RD & _).
  - intros i _. apply fine_prefix. exact (fa_ns _ _ FA).
  - symmetry. apply same_at. exact SN.
  - apply fine_prefix. exact (fa_ns _ _ FA).
  - apply (lookup_one _ _ _ _ _ _ MO FG RO RG); [exact SN|]. right. exact SRC0.
  - exists (XStart (txt "unit") (Some SRC_URI) (sax_attributes (member_attrs a (wu w))) :: b ++ [XEnd]). split.
    + exists b, (uri_in pre (sax_namespaces (member_attrs a (wu w)) ++ sax_namespaces (root_attrs a al))). split; [reflexivity|]. split; [exact TB|]. split.
      * intros i q AU SU C1 C2 C3 C4. unfold uri_in.
        destruct (in_archive_declared extract a al u lang encoding hash ts PR N0 RN U H (shows_good _ _ SH) A) as (w' & E & DE & _). rewrite P in E. injection E as <-.
        apply (lookup_one _ _ _ _ _ _ MO FG RO RG); [exact SN|]. destruct (DE i q AU SU C1 C2 C3 C4) as [I|I]; [right|left]; unfold prefix_of in I; rewrite fresh_out in I by exact N0; exact I.
      * unfold extract_src. cbn [extract_events extract_event]. change (beqb (txt "unit") (txt "escape")) with false. cbn [obind andb]. rewrite EX. reflexivity.
    + intros m st rest l R. specialize (RD m st rest l R). unfold unit_doc. rewrite X. cbn [fst snd]. rewrite C. cbn [app]. rewrite <- app_assoc. exact RD.
Qed.
(** ** The whole *)
Lemma newline_reads : forall e st rest l, reads (e :: st) rest l -> reads (e :: st) ([10; 10] ++ rest) (blank_line ++ l).
Proof. intros e st rest l R. cbn [app blank_line]. apply rd_char; [right; right; reflexivity|discriminate|discriminate|]. apply rd_char; [right; right; reflexivity|discriminate|discriminate|]. exact R. Qed.
Lemma macros_read : forall ms m sc st rest l, Forall (fun p => xml_chars (fst p) /\ xml_chars (snd p)) ms -> reads ((m, sc) :: st) rest l ->
  reads ((m, sc) :: st) (flat_map macro_xml ms ++ rest)
    (flat_map (fun p => [XStart (txt "macro-list") (lookup_ns None sc) [(txt "token", fst p); (txt "type", snd p)]; XEnd]) ms ++ l).
Proof.
  induction ms as [|p ms IH]; intros m sc st rest l F R; [exact R|]. destruct (Forall_inv F) as (C1 & C2). specialize (IH m sc st rest l (Forall_inv_tail F) R).
  set (A := [(txt "token", fst p); (txt "type", snd p)]).
  assert (NN : ncname (txt "macro-list")) by name_ok.
  assert (FA : fine_attrs A).
  { split; [constructor; [|constructor; [|constructor]]; cbn [fst snd]; (split; [assert (N : ncname (txt "token") /\ ncname (txt "type")) by (split; name_ok); first [exact (proj1 (proj1 N))|exact (proj1 (proj2 N))]|split; [reflexivity|assumption]])|].
    constructor; [intros [E|[]]; discriminate E|constructor; [intros []|constructor]]. }
  assert (PS : plain_start (txt "macro-list")) by (split; discriminate). assert (NM : ns_name (txt "macro-list") None (txt "macro-list")) by (split; [exact NN|reflexivity]).
  pose proof (rd_empty m sc st _ _ None (txt "macro-list") _ _ _ (fine_tag _ _ (proj1 NN) FA) PS NM IH) as RR.
  unfold start_event in RR. rewrite (fine_scope _ FA) in RR. change (sax_attributes A) with A in RR. cbn [flat_map app]. rewrite <- app_assoc. unfold macro_xml. rewrite <- app_assoc.
  rewrite <- app_assoc. rewrite <- app_assoc in RR. exact RR.
Qed.
Lemma units_read : forall a al us tss, Forall2 (fun x p => unit_part a al x (fst p) (snd p)) us tss ->
  exists evs, length evs = length us /\ Forall2 (fun xp e => unit_is a (member_attrs a (snd (fst (fst xp)))) (fst (snd xp)) (snd (snd xp)) e) (combine us tss) evs /\
    forall m st rest l, reads ((m, sax_namespaces (root_attrs a al)) :: st) rest l ->
      reads ((m, sax_namespaces (root_attrs a al)) :: st) (flat_map (fun x => [10; 10] ++ unit_doc a 1 x) us ++ rest) (flat_map (fun e => blank_line ++ e) evs ++ l).
Proof.
  induction 1 as [|x p us tss (e & E & RE) F (evs & L & IS & RD)].
  - exists []. split; [reflexivity|]. split; [constructor|]. intros m st rest l R. exact R.
  - exists (e :: evs). split; [cbn; rewrite L; reflexivity|]. split; [constructor; [exact E|exact IS]|]. intros m st rest l R.
    cbn [flat_map]. rewrite <- !app_assoc. apply newline_reads, RE, RD, R.
Qed.
Lemma lookup_some : forall sc p u, lookup_ns p sc = Some u -> In (p, u) sc.
Proof.
  induction sc as [|(q, v) sc IH]; intros p u H; [discriminate H|]. cbn [lookup_ns] in H. destruct (same_prefix q p) eqn:E; [|right; apply IH, H].
  apply same_prefix_true in E. injection H as ->. subst q. left. reflexivity.
Qed.
Lemma lookup_declared : forall l u, lookup_ns None (sax_namespaces l) = Some u -> In (declaration [] u) l.
Proof.
  intros l u H. apply lookup_some, sax_in in H as (n & I & D). unfold declares in D. destruct (bytes_dec n (txt "xmlns")) as [->|]; [exact I|].
  destruct (bytes_dec (firstn 6 n) (txt "xmlns:")); discriminate D.
Qed.
Theorem archive_read_as_xml : forall extract a al us tss,
  produced (a, al) -> fine_archive a al -> N.testbit (a_options a) 14 = true -> N.testbit (a_options a) 8 = true -> a_revision_number a = None ->
  Forall2 (fun x p => parsed_in extract a x (fst p) (snd p)) us tss ->
  exists d mu evs, archive_doc a al us = xml_declaration a ++ instruction a ++ d ++ [10] /\
    (prefix_from_uri a SRC_URI = Some [] -> mu = Some SRC_URI) /\ (forall u, mu = Some u <-> In (declaration [] u) (root_attrs a al)) /\
    length evs = length us /\ Forall2 (fun xp e => unit_is a (member_attrs a (snd (fst (fst xp)))) (fst (snd xp)) (snd (snd xp)) e) (combine us tss) evs /\
    xml_document d (XStart (txt "unit") (Some SRC_URI) (sax_attributes (root_attrs a al)) :: macro_events mu a ++
      flat_map (fun e => blank_line ++ e) evs ++ (match us with [] => [] | _ => blank_line end) ++ [XEnd]).
Proof.
  intros extract a al us tss PR FA A D RN F. pose proof (produced_ns_ok _ PR) as K. cbn [fst] in K.
  assert (F' : Forall2 (fun x p => unit_part a al x (fst p) (snd p)) us tss).
  { clear -F PR FA A D RN. induction F as [|x p us tss H F IH]; constructor; [exact (member_told extract a al x _ _ PR RN A D FA H)|exact IH]. }
  destruct (units_read a al us tss F') as (evs & L & IS & RD). destruct (root_fine a al FA) as (RO & RG). assert (SRC0 := src_declared a al PR A D).
  destruct (tag_ok _ _ RO RG) as (TF & TD). change (tag_attrs _ _) with (root_attrs a al) in TF, TD.
  set (L0 := root_attrs a al) in *. set (p0 := prefix_at SRC (root_namespaces a)) in *.
  assert (LK : lookup_ns (prefix_opt p0) (sax_namespaces L0) = Some SRC_URI) by (apply (lookup_alone _ _ _ _ RO RG); exact SRC0).
  destruct (prefixed_ns p0 (txt "unit")) as (Q & E & NN); [apply fine_prefix; exact (fa_ns _ _ FA)|name_ok|split; discriminate|].
  set (n := prefixed p0 (txt "unit")) in *.
  assert (T : xml_tag (root_tag a al) n L0).
  { exists (attrs L0). split; [reflexivity|]. split; [exact Q|]. apply attrs_read; assumption. }
  assert (EV : start_event (txt "unit") (prefix_opt p0) L0 [] = XStart (txt "unit") (Some SRC_URI) (sax_attributes L0)) by (unfold start_event; rewrite app_nil_r, LK; reflexivity).
  set (body := match us with [] => match pairs_of (a_macros a) with [] => None | _ => Some (macro_list a) end
                           | _ => Some (macro_list a ++ flat_map (fun x => [10; 10] ++ unit_doc a 1 x) us ++ [10; 10]) end).
  exists (unit_xml (root_tag a al) n body), (lookup_ns None (sax_namespaces L0)), evs.
  split. { unfold archive_doc, body. destruct us; reflexivity. }
  split. { intros PF. rewrite <- LK. assert (p0 = []) as ->; [|reflexivity]. pose proof (src_root a K) as SR. unfold root_prefix in SR.
    destruct (bytes_dec SRC_URI CPP_URI) as [Z|_]; [vm_compute in Z; discriminate Z|]. destruct (bytes_dec SRC_URI OPENMP_URI) as [Z|_]; [vm_compute in Z; discriminate Z|].
    destruct (bytes_dec SRC_URI POSITION_URI) as [Z|_]; [vm_compute in Z; discriminate Z|]. destruct (bytes_dec SRC_URI ERROR_URI) as [Z|_]; [vm_compute in Z; discriminate Z|]. rewrite PF in SR. injection SR as SR. symmetry. exact SR. }
  split. { intros u. split; [apply lookup_declared|]. intros I. exact (lookup_alone _ _ [] u RO RG I). }
  split; [exact L|]. split; [exact IS|].
  exists (root_tag a al), n, (prefix_opt p0), (txt "unit"), L0. repeat (split; [assumption|]). rewrite EV.
  assert (END : forall sc, reads [(n, sc)] (txt "</" ++ n ++ txt ">") [XEnd]) by (intros sc; change (txt ">") with ([62] ++ []); apply rd_end, rd_done).
  assert (FM := fa_macros _ _ FA).
  destruct us as [|x us].
  - destruct evs; [|discriminate L]. cbn [flat_map app]. unfold body, macro_list, macro_events. destruct (pairs_of (a_macros a)) as [|p ms] eqn:M; [right; split; reflexivity|].
    left. eexists _, _. split; [reflexivity|]. split; [|reflexivity]. apply macros_read; [exact FM|]. apply END.
  - left. eexists _, _. split; [reflexivity|]. split; [|reflexivity]. unfold macro_list, macro_events. rewrite <- !app_assoc.
    apply macros_read; [exact FM|]. apply RD. apply newline_reads. apply END.
Qed.
