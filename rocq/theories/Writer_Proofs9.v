(** Inner and outer srcML of a written unit (C21); declared namespaces (C34). *)
From Verif Require Import Base Text_Model Text_Spec Text_Proofs Text_Proofs2 Text_Proofs3 Api_Model Api_Proofs Api_Proofs3 Writer_Model Writer_Spec Writer_Proofs Writer_Proofs2 Writer_Proofs3 Writer_Proofs4 Writer_Proofs5 Writer_Proofs6 Writer_Proofs7 Writer_Proofs8.
Local Open Scope N_scope.

Definition isurl (p : bytes * bytes) : bool := negb (beqb (fst p) (txt "url")).
Lemma notin_ne : forall (l : list (bytes * bytes)), ~ In (txt "url") (map fst l) <-> (forall p, In p l -> fst p <> txt "url").
Proof.
  intros l. split.
  - intros H p I E. apply H. rewrite <- E. apply in_map, I.
  - intros H I. apply in_map_iff in I as (p & E & I). exact (H p I E).
Qed.
Lemma given_ne : forall n v p, n <> txt "url" -> In p (given n v) -> fst p <> txt "url".
Proof. intros n [v|] p N I; [destruct I as [<-|[]]; exact N|destruct I]. Qed.
Lemma tabs_ne : forall p, p ++ txt ":tabs" <> txt "url".
Proof. intros [|a [|b [|c [|d p]]]] H; vm_compute in H; discriminate H. Qed.
(** the attributes around the url *)
Lemma tag_split : forall a u, opt (a_options a) B_NAMESPACE_DECL = true -> uo_revision u <> None -> ~ In (txt "url") (map fst (pairs_of (uo_attributes u))) ->
  exists before after, tag_attrs (unit_out a u) (start_args a u (uo_revision u)) = src_decl a u :: before ++ given (txt "url") (uo_url u) ++ after /\
    before <> [] /\ (forall p, In p (before ++ after) -> fst p <> txt "url").
Proof.
  intros a u D R NU. destruct (tag_first a u (start_args a u (uo_revision u))) as (rest & E); [rewrite clear_decl; exact D|].
  unfold tag_attrs in E. set (o := unit_out a u) in *. set (g := start_args a u (uo_revision u)) in *.
  set (N := if opt (so_options o) B_NAMESPACE_DECL then _ else _) in E.
  assert (NX : forall p, In p N -> fst p <> txt "url").
  { unfold N. destruct (opt (so_options o) B_NAMESPACE_DECL); [|intros p []]. intros p I. apply in_map_iff in I as (n & <- & _). unfold ns_attr. cbn [fst].
    destruct (ns_prefix n); intros F; vm_compute in F; discriminate F. }
  set (post := given (txt "filename") (g_filename g) ++ given (txt "version") (g_version g) ++
    (if opt (so_options o) B_POSITION then [(match prefix_at POS (so_ns o) with [] => txt "tabs" | p => p ++ txt ":tabs" end, so_tabs o)] else []) ++
    given (txt "timestamp") (g_timestamp g) ++ given (txt "hash") (g_hash g) ++
    (if opt (so_options o) B_STORE_ENCODING then [(txt "src-encoding", match g_encoding g with None | Some [] => txt "UTF-8" | Some e => e end)] else []) ++
    (if (so_depth o =? 0) then match stored_options (so_options o) with [] => [] | s => [(txt "options", s)] end else []) ++ pairs_of (g_attributes g)).
  set (pre := given (txt "revision") (g_revision g) ++ given (txt "language") (g_language g)).
  assert (UA : unit_attrs o g = pre ++ given (txt "url") (g_url g) ++ post) by (unfold unit_attrs, pre, post; rewrite <- !app_assoc; reflexivity).
  assert (PX : forall p, In p post -> fst p <> txt "url").
  { intros p I. unfold post in I. rewrite !in_app_iff in I.
    destruct I as [I|[I|[I|[I|[I|[I|[I|I]]]]]]]; try (eapply given_ne; [|exact I]; intros F; vm_compute in F; discriminate F).
    - destruct (opt (so_options o) B_POSITION); [|destruct I]. destruct I as [<-|[]]. cbn [fst]. destruct (prefix_at POS (so_ns o)); [intros F; vm_compute in F; discriminate F|].
      apply (tabs_ne (_ :: _)).
    - destruct (opt (so_options o) B_STORE_ENCODING); [|destruct I]. destruct I as [<-|[]]. cbn [fst]. intros F; vm_compute in F; discriminate F.
    - destruct (so_depth o =? 0); [|destruct I]. destruct (stored_options (so_options o)); [destruct I|]. destruct I as [<-|[]]. cbn [fst]. intros F; vm_compute in F; discriminate F.
    - revert p I. apply notin_ne. exact NU. }
  assert (GU : named (given (txt "url") (g_url g)) = given (txt "url") (uo_url u)).
  { change (g_url g) with (uo_url u). destruct (uo_url u); reflexivity. }
  rewrite UA, !named_app, GU in E.
  assert (NP : named pre = pre).
  { unfold pre. rewrite named_app. f_equal; [destruct (g_revision g)|destruct (g_language g)]; reflexivity. }
  assert (D2 : opt (so_options o) B_NAMESPACE_DECL = true) by (change (so_options o) with (clear_archive (a_options a)); rewrite clear_decl; exact D).
  (* N itself is not empty *)
  assert (N0 : exists N', N = src_decl a u :: N').
  { destruct (tag_first a u (TagArgs None None None None None None None None [] false)) as (r0 & E0); [rewrite clear_decl; exact D|].
    unfold tag_attrs in E0. fold o in E0. fold N in E0. destruct N as [|n0 N'] eqn:EN; [|cbn [app] in E0; injection E0 as -> _; eauto].
    exfalso. unfold N in EN. rewrite D2 in EN. destruct (filter (declared (so_options o) (so_depth o)) (ns_now o)) eqn:F; [|discriminate].
    cbn [app] in E. unfold pre in E. change (g_revision g) with (uo_revision u) in E. destruct (uo_revision u) as [r|]; [|apply R; reflexivity].
    cbn [given app] in E. unfold named in E. cbn [filter] in E. apply (f_equal (fun l : list (bytes * bytes) => match l with p :: _ => hd 0 (fst p) | [] => 0 end)) in E.
    unfold src_decl in E. cbn [fst] in E. destruct (prefix_at SRC (so_ns (unit_out a u))); vm_compute in E; discriminate E. }
  destruct N0 as (N' & EN). exists (N' ++ pre), (named post). unfold tag_attrs. fold o. fold g. fold N. rewrite UA, !named_app, GU, NP, EN.
  split; [cbn [app]; rewrite <- !app_assoc; reflexivity|]. split.
  - unfold pre. change (g_revision g) with (uo_revision u). destruct (uo_revision u) as [r|]; [|exfalso; apply R; reflexivity]. destruct N'; discriminate.
  - intros p I. rewrite !in_app_iff in I. destruct I as [[I|I]|I].
    + apply NX. rewrite EN. right. exact I.
    + unfold pre in I. rewrite in_app_iff in I. destruct I as [I|I]; (eapply given_ne; [|exact I]; intros F; vm_compute in F; discriminate F).
    + apply PX. unfold named in I. apply filter_In in I. apply I.
Qed.
Lemma filter_all : forall (l : list (bytes * bytes)), (forall p, In p l -> fst p <> txt "url") -> filter isurl l = l.
Proof.
  induction l as [|p l IH]; intros H; [reflexivity|]. cbn [filter]. unfold isurl at 1. destruct (beqb (fst p) (txt "url")) eqn:B.
  - exfalso. apply beqb_true in B. exact (H p (or_introl eq_refl) B).
  - cbn [negb]. f_equal. apply IH. intros q I. apply H. right. exact I.
Qed.
Lemma xml_name_no : forall n, xml_name n -> no_byte 32 n /\ no_byte 62 n.
Proof. intros n H. split; (eapply Forall_impl; [|exact H]); intros c (A & B & C & D & E); assumption. Qed.
Lemma xml_name_app : forall x y, xml_name (x ++ y) <-> xml_name x /\ xml_name y. Proof. intros. apply Forall_app. Qed.
Lemma outer_written : forall a u c, uo_srcml u = unit_xml (unit_tag a u) (unit_element a u) c -> uo_insert u = insert_of a u ->
  opt (a_options a) B_NAMESPACE_DECL = true -> url_safe a u ->
  outer u = Ok (unit_xml (outer_tag a u) (unit_element a u) c).
Proof.
  intros a u c S I D (SAFE & NU & R). destruct (tag_split a u D R NU) as (before & after & E & NE & NX).
  rewrite E in SAFE.
  assert (ND : not_url (src_decl a u)).
  { destruct (SAFE _ (or_introl eq_refl)) as [A B].
    assert (N0 : fst (src_decl a u) <> txt "url") by (unfold src_decl; cbn [fst]; destruct (prefix_at SRC (so_ns (unit_out a u))); intros F; vm_compute in F; discriminate F).
    repeat split; [exact A|exact N0|apply B, N0]. }
  assert (NA : Forall not_url (before ++ after)).
  { apply Forall_forall. intros p Ip. assert (Ip2 : In p (src_decl a u :: before ++ given (txt "url") (uo_url u) ++ after)).
    { right. rewrite !in_app_iff in *. tauto. }
    destruct (SAFE p Ip2) as [A B]. repeat split; [exact A|apply NX, Ip|apply B, NX, Ip]. }
  assert (EL : no_byte 62 (unit_element a u) /\ no_byte 32 (unit_element a u)).
  { destruct (SAFE _ (or_introl eq_refl)) as [A _]. unfold src_decl in A. cbn [fst] in A. unfold unit_element, prefixed.
    destruct (prefix_at SRC (so_ns (unit_out a u))) as [|c0 p]; [split; repeat constructor; discriminate|].
    apply xml_name_app in A as [_ A]. apply xml_name_no in A as [A1 A2]. rewrite !no_byte_app. repeat split; try assumption; repeat constructor; discriminate. }
  set (tail := match c with None => txt "/>" | Some c => txt ">" ++ c ++ txt "</" ++ unit_element a u ++ txt ">" end).
  assert (UX : forall tag, unit_xml tag (unit_element a u) c = tag ++ tail) by (intros tag; unfold unit_xml, tail; destruct c; reflexivity).
  assert (TE : tag_end tail) by (unfold tail, tag_end; destruct c; eexists; [left|right]; reflexivity).
  assert (UT : unit_tag a u = [60] ++ unit_element a u ++ attr (src_decl a u) ++ attrs before ++ attrs (given (txt "url") (uo_url u)) ++ attrs after).
  { unfold unit_tag, start_tag. rewrite E. unfold unit_element. change (attrs (?x :: ?l)) with (attr x ++ attrs l). rewrite !attrs_app. reflexivity. }
  rewrite UX in S. rewrite UT in S. rewrite UX. unfold outer_tag. rewrite E. cbn [tl].
  rewrite !filter_app. fold isurl. 
  change (filter (fun p : bytes * bytes => negb (beqb (fst p) (txt "url")))) with (filter isurl).
  rewrite (filter_all before), (filter_all after) by (intros p Ip; apply NX; rewrite in_app_iff; tauto).
  replace (filter isurl (given (txt "url") (uo_url u))) with (@nil (bytes * bytes)) by (destruct (uo_url u); reflexivity).
  cbn [app]. rewrite <- !app_assoc in S.
  pose proof (outer_ok u (unit_element a u) (src_decl a u) before (uo_url u) after tail S) as G.
  rewrite G; [|exact I|apply EL|apply EL|exact ND|exact NA|exact NE|exact TE].
  f_equal. cbn [app]. rewrite <- app_assoc. reflexivity.
Qed.
Lemma inner_written : forall u tag q c, uo_srcml u = unit_xml tag q c ->
  uo_content u = (Z.of_nat (length tag) + 1, Z.of_nat (length tag) + 1 + match c with None => 0 | Some c => 1 + Z.of_nat (length c) end)%Z ->
  inner u = Ok (text_of c).
Proof.
  intros u tag q [c|] S C.
  - pose proof (inner_ok u tag q [Chars c]) as G. unfold content_of, xml_all in G. cbn [flat_map xml] in G. rewrite app_nil_r in G. apply G; assumption.
  - pose proof (inner_ok u tag q []) as G. apply G; assumption.
Qed.
Lemma insert_same : forall a u v, unit_namespaces a v = unit_namespaces a u -> insert_of a v = insert_of a u.
Proof. intros a u v H. unfold insert_of, src_decl, unit_out. rewrite H. reflexivity. Qed.
Lemma tag_same : forall a u v, same_settings u v -> unit_namespaces a v = unit_namespaces a u -> unit_tag a v = unit_tag a u /\ unit_element a v = unit_element a u.
Proof.
  intros a u v (Q1 & Q2 & Q3 & Q4 & Q5 & Q6) H. unfold unit_tag, unit_element, start_args, unit_out. rewrite H, Q2, Q3, Q4, Q5. split; reflexivity.
Qed.

(** ** Namespaces used by the content are declared *)
Lemma grows_now : forall o, grows (so_ns o) (ns_now o).
Proof. intros o. unfold ns_now. eapply grows_trans; [apply grows_mark|apply grows_options]. Qed.
Lemma flag_sub : forall n f, f <> 0 -> subflags f (ns_flags n) -> flag n f = true.
Proof. intros n f F S. unfold flag. rewrite (sub_land _ _ S). destruct (f =? 0) eqn:E; [apply N.eqb_eq in E; contradiction|reflexivity]. Qed.
Lemma no_archive : forall o, opt (clear_archive o) B_ARCHIVE = false.
Proof. intros o. unfold opt, clear_archive, B_ARCHIVE, OPT_ARCHIVE. rewrite N.ldiff_spec, pow2_bit. cbn. apply andb_false_r. Qed.
Lemma declared_used : forall o d n, opt o B_ARCHIVE = false -> subflags NS_STANDARD (ns_flags n) ->
  (subflags NS_USED (ns_flags n) \/ subflags NS_REQUIRED (ns_flags n)) -> declared o d n = true.
Proof.
  intros o d n A S U. unfold declared. rewrite A. cbn [negb]. rewrite !orb_true_r. cbn [andb]. rewrite (flag_sub n NS_STANDARD); [|discriminate|exact S].
  cbn [andb negb]. destruct U as [U|U].
  - rewrite (flag_sub n NS_USED); [|discriminate|exact U]. destruct (flag n NS_REQUIRED), (flag n NS_ROOT); cbn; rewrite ?orb_true_r; reflexivity.
  - rewrite (flag_sub n NS_REQUIRED); [|discriminate|exact U]. reflexivity.
Qed.
Lemma default_uri : forall i, option_map ns_uri (nth_error default_namespaces i) = standard_uri i.
Proof. intros [|[|[|[|[|i]]]]]; try reflexivity. cbn. destruct i; reflexivity. Qed.
Lemma default_standard : forall i d, nth_error default_namespaces i = Some d -> subflags NS_STANDARD (ns_flags d).
Proof.
  intros [|[|[|[|[|i]]]]] d E; try (cbn in E; injection E as <-; vm_compute; reflexivity). cbn in E. destruct i; discriminate.
Qed.
Lemma used_declared : forall a v l l0 i u, opt (a_options a) B_NAMESPACE_DECL = true -> uo_namespaces v = Some l ->
  same_names l (merge default_namespaces l0) -> used_at i l -> standard_uri i = Some u ->
  In (declaration (prefix_at i (merge default_namespaces l0)) u) (tag_attrs (unit_out a v) (start_args a v (uo_revision v))).
Proof.
  intros a v l l0 i u D N SN US SU. rewrite <- default_uri in SU. destruct (nth_error default_namespaces i) as [d|] eqn:Ed; [|discriminate].
  injection SU as <-. destruct (remerged l0 l i d SN Ed) as (n & m & E1 & E2 & P & U & F1 & F2).
  unfold tag_attrs. change (so_options (unit_out a v)) with (clear_archive (a_options a)). rewrite clear_decl, D. apply in_app_iff. left.
  assert (NN : so_ns (unit_out a v) = merge default_namespaces l) by (rewrite unit_out_ns; unfold unit_namespaces; rewrite N; reflexivity).
  destruct (grows_nth _ _ i m (grows_now (unit_out a v))) as (m' & E3 & (G1 & G2 & G3 & _)); [rewrite NN; exact E2|].
  apply in_map_iff. exists m'. split.
  - unfold ns_attr, declaration. destruct (merged_nth l i d Ed) as (x & X1 & X2 & _). rewrite X1 in E2. injection E2 as ->.
    rewrite G1, G2, X2, P. f_equal. rewrite <- (prefix_names i l (merge default_namespaces l0) SN). unfold prefix_at. rewrite E1. destruct (ns_prefix n); reflexivity.
  - apply filter_In. split; [eapply nth_error_In, E3|]. apply declared_used.
    + apply no_archive.
    + eapply sub_trans; [apply (default_standard i d Ed)|]. eapply sub_trans; eassumption.
    + left. destruct US as (n' & E' & S'). rewrite E1 in E'. injection E' as <-. eapply sub_trans; [exact S'|]. eapply sub_trans; eassumption.
Qed.

(** ** The two ways of making a unit *)
Lemma parsed : forall extract a u lang encoding hash ts,
  usable a (parse_start a (wu u) lang encoding) -> clean_opt hash -> Forall good_tree ts ->
  exists v, parse_unit extract a u lang encoding hash (flat_map tokens_of ts) = Ok (ST_OK, v) /\
    same_settings (parse_end a (wu u) lang encoding hash) (wu v) /\
    let c := forest_content (prefix_of a (parse_start a (wu u) lang encoding)) ts in
    uo_srcml (wu v) = unit_xml (unit_tag a (wu v)) (unit_element a (wu v)) c /\
    inner (wu v) = Ok (text_of c) /\
    (url_safe a (wu v) -> outer (wu v) = Ok (unit_xml (outer_tag a (wu v)) (unit_element a (wu v)) c)).
Proof.
  intros extract a u lang encoding hash ts U H G. destruct (parse_ok extract a u lang encoding hash ts U H G) as (v & E & S & C & I & B & SS & UV & _).
  exists v. split; [exact E|]. split; [exact SS|]. cbv zeta. split; [exact S|]. split.
  - eapply inner_written; [exact S|]. rewrite C. f_equal. f_equal. destruct ts; reflexivity.
  - intros SAFE. apply outer_written; [exact S|exact I|apply UV|exact SAFE].
Qed.
Lemma by_element : forall extract a u cs, usable a (wu u) -> all_proper ([], []) cs -> Forall clean_call cs ->
  exists v, write_by_element extract a u cs = Ok (ST_OK, v) /\ same_settings (wu u) (wu v) /\
    (exists u1 u2, write_start_unit a u = Ok (ST_OK, u1) /\ write_calls u1 cs = Ok (fst (spec_calls ([], []) cs), u2)) /\
    let c := content_of (contents (snd (spec_calls ([], []) cs))) in
    uo_srcml (wu v) = unit_xml (unit_tag a (wu v)) (unit_element a (wu v)) c /\
    inner (wu v) = Ok (text_of c) /\
    (url_safe a (wu v) -> outer (wu v) = Ok (unit_xml (outer_tag a (wu v)) (unit_element a (wu v)) c)).
Proof.
  intros extract a u cs U P K. pose proof U as (D & _). destruct (by_element_ok extract a u cs U P K) as (u1 & u2 & v & E1 & E2 & E3 & Y).
  cbv zeta in Y. destruct Y as (S & C & I & B & SS & T & NN).
  assert (NV : unit_namespaces a (wu v) = unit_namespaces a (wu u)) by (unfold unit_namespaces at 1; rewrite NN; reflexivity).
  destruct (tag_same a (wu u) (wu v) SS NV) as [TV EV].
  exists v. split; [unfold write_by_element; rewrite E1; cbn [obind snd]; rewrite E2; cbn [obind snd]; exact E3|]. split; [exact SS|].
  split; [eauto|]. cbv zeta. rewrite TV, EV. split; [exact S|]. split.
  - eapply inner_written; [exact S|]. rewrite C. f_equal. f_equal. destruct (contents (snd (spec_calls ([], []) cs))); reflexivity.
  - intros SAFE. rewrite <- EV. apply outer_written; [rewrite TV, EV; exact S| |exact D|exact SAFE]. rewrite I. symmetry. apply insert_same, NV.
Qed.
Lemma parsed_declared : forall extract a u lang encoding hash ts,
  usable a (parse_start a (wu u) lang encoding) -> clean_opt hash -> Forall good_tree ts ->
  exists v, parse_unit extract a u lang encoding hash (flat_map tokens_of ts) = Ok (ST_OK, v) /\
    forall i uri, any_uses i ts -> standard_uri i = Some uri ->
      In (declaration (prefix_of a (parse_start a (wu u) lang encoding) i) uri) (tag_attrs (unit_out a (wu v)) (start_args a (wu v) (uo_revision (wu v)))).
Proof.
  intros extract a u lang encoding hash ts U H G. destruct (parse_ok extract a u lang encoding hash ts U H G) as (v & E & S & C & I & B & SS & UV & l & N & SG & US). pose proof (grows_names _ _ SG) as SN.
  exists v. split; [exact E|]. intros i uri UI SU. apply (used_declared a (wu v) l); [apply U|exact N|exact SN| |exact SU].
  apply US; [exact UI|]. unfold standard_uri in SU. assert (X : nth_error [SRC_URI; CPP_URI; ERROR_URI; POSITION_URI; OPENMP_URI] i <> None) by (rewrite SU; discriminate).
  apply nth_error_Some in X. exact X.
Qed.
