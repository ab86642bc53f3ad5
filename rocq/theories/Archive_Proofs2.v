(** Proofs about archive documents: sequences of units, closing (C23). *)
From Verif Require Import Base Text_Model Text_Spec Text_Proofs Text_Proofs2 Text_Proofs3 Api_Model Api_Proofs Api_Proofs3 Writer_Model Writer_Spec Writer_Proofs Writer_Proofs2 Writer_Proofs3 Writer_Proofs4 Writer_Proofs7 Archive_Model Archive_Spec Archive_Proofs.
Local Open Scope N_scope.

Lemma prepare_outputting : forall t, t_outputting (prepare_output t) = t_outputting t.
Proof. intros t. unfold prepare_output. destruct (t_first t); reflexivity. Qed.
Lemma prepare_twice : forall t, prepare_output (prepare_output t) = prepare_output t.
Proof. intros t. unfold prepare_output at 2 3. destruct (t_first t) eqn:E; [reflexivity|]. unfold prepare_output. rewrite E. reflexivity. Qed.
Lemma add_prepared : forall ua t u, t_outputting t = false -> add_unit ua t u = add_unit ua (prepare_output t) u.
Proof. intros ua t u H. unfold add_unit. rewrite prepare_outputting, H, prepare_twice. reflexivity. Qed.

Definition started (m : am) (t : trans) (r : option (nat * bool)) : Prop := am_type m = IO_WRITE /\ am_trans m = Some (t, r).
Definition units_written (a : archive) (us : list (archive * uobj * option bytes)) (w : writer) : writer :=
  match us with [] => w | _ => Writer (w_out (close_tag w) ++ flat_map (fun x => [10; 10] ++ unit_doc a 1 x) us) (w_nodes w) false [] end.
Lemma arun_app : forall xs ys m, arun m (xs ++ ys) = obind (arun m xs) (fun p => obind (arun (snd p) ys) (fun q => Ok (fst p ++ fst q, snd q))).
Proof.
  induction xs as [|x xs IH]; intros ys m; cbn [app arun].
  - cbn [obind fst snd app]. destruct (arun m ys) as [[r m']|]; reflexivity.
  - destruct (astep m x) as [[r m1]|]; cbn [obind fst snd]; [|reflexivity]. rewrite IH.
    destruct (arun m1 xs) as [[rs m2]|]; cbn [obind fst snd]; [|reflexivity]. destruct (arun m2 ys) as [[q m3]|]; reflexivity.
Qed.
(** what writing leaves alone *)
Definition same_io (m m' : am) : Prop :=
  am_type m' = am_type m /\ am_buf m' = am_buf m /\ am_raw m' = am_raw m /\
  am_next m' = am_next m /\ am_memory m' = am_memory m /\ am_x m' = am_x m /\ am_user m' = am_user m /\ am_files m' = am_files m /\ am_reader m' = am_reader m.
Lemma same_io_refl : forall m, same_io m m. Proof. intros m. repeat split. Qed.
Lemma same_io_trans : forall x y z, same_io x y -> same_io y z -> same_io x z.
Proof. intros x y z (A3&A4&A5&A6&A7&A8&A9&A0&AA) (B3&B4&B5&B6&B7&B8&B9&B0&BB). repeat split; etransitivity; eassumption. Qed.
Lemma closed_intag : forall w, w_intag (close_tag w) = false.
Proof. intros w. unfold close_tag. destruct (w_intag w) eqn:Q; [reflexivity|exact Q]. Qed.
Lemma raw_out : forall w s, w_out (close_tag (fst (write_raw w s))) = w_out (close_tag w) ++ s.
Proof. intros w s. unfold write_raw. cbn [fst]. unfold close_tag at 1. cbn [w_intag]. rewrite closed_intag. reflexivity. Qed.
Lemma quiet_step : forall m c, am_type m = IO_WRITE -> quiet c -> exists r m', astep m c = Ok (r, m') /\ same_io m m' /\ am_trans m' = am_trans m /\ accepted c r.
Proof.
  intros m c T Q. destruct c as [[]|[] ok|[] [[[? ?] ?]|]|[[ua u]|]|[s|] len| | | |c]; cbn in Q; try contradiction;
    cbn [astep negb]; try (eexists _, _; split; [reflexivity|]; split; [apply same_io_refl|split; [reflexivity|exact I]]).
  - unfold write_unit. rewrite Q. cbn [negb]. eexists _, _. split; [reflexivity|]. split; [apply same_io_refl|]. split; [reflexivity|]. cbn. intros F. rewrite Q in F. discriminate F.
  - apply Z.ltb_lt in Q. rewrite Q. eexists _, _. split; [reflexivity|]. split; [apply same_io_refl|split; [reflexivity|exact I]].
  - rewrite T. eexists _, _. split; [reflexivity|]. split; [apply same_io_refl|split; [reflexivity|exact I]].
  - rewrite T. eexists _, _. split; [reflexivity|]. split; [apply same_io_refl|split; [reflexivity|exact I]].
  - destruct (step (am_a m) c) as [st a']. eexists _, _. split; [reflexivity|]. split; [repeat split|split; [reflexivity|exact I]].
Qed.
Lemma units_ok : forall a cs us, later cs us -> forall m t r w l, started m t r -> matches t a -> Forall good_unit us -> t_first t = false -> is_archive a = true ->
  so_depth (t_out t) = 1 -> so_didwrite (t_out t) = true -> so_w (t_out t) = Some w -> w_nodes w = Some l -> w_ns w = [] ->
  exists rs m' t', arun m cs = Ok (rs, m') /\ Forall2 accepted cs rs /\ same_io m m' /\ started m' t' r /\ matches t' a /\ t_first t' = false /\
    so_depth (t_out t') = 1 /\ so_didwrite (t_out t') = true /\ so_w (t_out t') = Some (units_written a us w).
Proof.
  intros a cs us LT. induction LT as [|ua u c cs us LT IH|c cs us Q LT IH]; intros m t r w l ST M G F AR D DW W L NS.
  - exists [], m, t. split; [reflexivity|]. split; [constructor|]. split; [apply same_io_refl|]. repeat (split; [assumption|]). exact W.
  - inversion G as [|x y G1 G2]; subst. destruct G1 as [C RB]. cbn [fst snd] in C, RB. destruct ST as [TY TR].
    destruct (unit_ok a ua u c t w l M C F W L NS) as (t1 & E & M1 & F1 & D1 & DW1 & W1). cbn zeta in W1. rewrite AR in W1. rewrite D in D1, W1. cbn in D1.
    set (w1 := Writer _ _ _ _) in W1.
    set (m1 := set_trans m (am_buf m) (Some (t1, r))).
    assert (S1 : started m1 t1 r) by (split; [exact TY|reflexivity]).
    destruct (IH m1 t1 r w1 l S1 M1 G2 F1 AR D1 DW1 W1 eq_refl eq_refl) as (rs & m' & t' & R & AC & SI & S' & M' & F' & D' & DW' & W').
    exists (RStatus ST_OK :: rs), m', t'. split; [|split; [|split; [|repeat (split; [assumption|])]]].
    + cbn [arun astep]. unfold write_unit. rewrite RB. cbn [negb]. rewrite TY, TR. cbn [obind fst snd]. rewrite E. cbn [obind fst snd].
      fold m1. rewrite R. reflexivity.
    + constructor; [intros _; reflexivity|exact AC].
    + eapply same_io_trans; [|exact SI]. repeat split.
    + rewrite W'. f_equal. unfold w1. rewrite raw_out. unfold units_written. destruct us as [|x us].
      * cbn [flat_map]. rewrite L, app_nil_r, <- !app_assoc. reflexivity.
      * rewrite close_closed. cbn [w_out w_nodes flat_map]. rewrite L, <- !app_assoc. reflexivity.
  - destruct ST as [TY TR]. destruct (quiet_step m c TY Q) as (r1 & m1 & E1 & SI1 & T1 & AC1).
    assert (S1 : started m1 t r) by (split; [rewrite (proj1 SI1); exact TY|rewrite T1; exact TR]).
    destruct (IH m1 t r w l S1 M G F AR D DW W L NS) as (rs & m' & t' & R & AC & SI & S' & M' & F' & D' & DW' & W').
    exists (r1 :: rs), m', t'. split; [|split; [|split; [|repeat (split; [assumption|])]]].
    + cbn [arun]. rewrite E1. cbn [obind fst snd]. rewrite R. reflexivity.
    + constructor; assumption.
    + eapply same_io_trans; eassumption.
    + exact W'.
Qed.
(** ** Closing *)
Lemma close_archive : forall a t w n, t_first t = false -> t_outputting t = false -> so_options (t_out t) = a_options a -> is_archive a = true ->
  so_didwrite (t_out t) = true -> so_w (t_out t) = Some w -> w_nodes w = Some [n] -> w_ns w = [] ->
  so_final (t_out (trans_close t)) = w_out (close_tag w) ++ [10; 10] ++ txt "</" ++ n ++ txt ">" ++ [10].
Proof.
  intros a t w n F OUT O AR DW W L NS. unfold trans_close. rewrite F, O. fold (is_archive a). rewrite AR. cbn [negb andb].
  unfold prepare_output. cbn [with_out t_first]. rewrite F. cbn [with_out t_outputting]. rewrite OUT. cbn [t_out].
  unfold separator, on_w. rewrite W. unfold out_close. cbn [with_out t_out with_w so_w so_didwrite so_final]. rewrite DW.
  unfold end_document, write_raw. cbn [fst w_nodes]. rewrite close_nodes, L. cbn [length end_all]. unfold end_element. cbn [w_nodes]. rewrite ?close_nodes, ?L.
  cbn [w_intag]. rewrite closed_intag.
  cbn [fst w_out]. rewrite <- !app_assoc. reflexivity.
Qed.
Definition out_of (w : writer) (didwrite : bool) : bytes := w_out (if didwrite then end_document w else w).
(** closing a translator that has just been prepared (no separator), or one without an archive element *)
Lemma close_prepared : forall t w, t_first t = true \/ opt (so_options (t_out t)) B_ARCHIVE = false -> t_outputting t = false -> so_w (t_out (prepare_output t)) = Some w ->
  so_final (t_out (trans_close t)) = out_of w (so_didwrite (t_out (prepare_output t))).
Proof.
  intros t w H OUT W. unfold trans_close.
  assert (E : negb (t_first t) && opt (so_options (t_out t)) B_ARCHIVE = false) by (destruct H as [-> | ->]; [reflexivity|apply andb_false_r]).
  rewrite E. rewrite prepare_outputting, OUT. unfold out_close. cbn [with_out t_out]. rewrite W. reflexivity.
Qed.

(** ** Documents *)
Lemma close_delivers : forall m t w s id memory, am_trans m = Some (t, Some (id, memory)) -> am_raw m = false ->
  (if memory then am_memory m = Some id /\ am_x m = Some [] else am_memory m = None) ->
  so_w (t_out t) = Some w -> so_final (t_out (trans_close t)) = s ->
  exists m', close m = Ok m' /\ am_type m' = IO_INVALID /\ delivered m m' memory s /\ am_a m' = am_a m /\ am_attributes m' = am_attributes m.
Proof.
  intros m t w s id memory T R X W F. unfold close. rewrite T, R.
  assert (E1 : (match am_type m, false, Some (t, Some (id, memory)) with IO_WRITE, false, None => obind (create_trans m) (fun t0 => Ok (set_trans m (am_buf m) (Some t0))) | _, _, _ => Ok m end) = Ok m) by (destruct (am_type m); reflexivity).
  rewrite E1. cbn [obind]. unfold close_trans. rewrite T, W. unfold deliver. rewrite F.
  destruct memory.
  - destruct X as [MEM X]. rewrite MEM, X, Nat.eqb_refl.
    cbn [andb set_trans am_raw am_a am_attributes am_type am_buf am_trans am_memory am_x am_user am_files am_reader am_next app]. rewrite R. cbn [obind am_memory].
    eexists. split; [reflexivity|]. repeat split.
  - rewrite X. cbn [andb set_trans am_raw am_a am_attributes am_type am_buf am_trans am_memory am_x am_user am_files am_reader am_next]. rewrite R. cbn [obind am_memory].
    eexists. split; [reflexivity|]. repeat split.
Qed.
Lemma doc_closed : forall m cs rs memory id, opened m id memory ->
  forall m2 t2 w2 s, same_io m m2 -> am_trans m2 = Some (t2, Some (id, memory)) -> so_w (t_out t2) = Some w2 -> so_final (t_out (trans_close t2)) = s ->
  arun m cs = Ok (rs, m2) ->
  exists m', arun m (cs ++ [Close]) = Ok (rs ++ [RVoid], m') /\ am_type m' = IO_INVALID /\ delivered m m' memory s.
Proof.
  intros m cs rs memory id (TR & RAW & TY & BUF & X) m2 t2 w2 s (I3&I4&I5&I6&I7&I8&I9&I0&IA) T2 W2 FIN R.
  assert (X2 : if memory then am_memory m2 = Some id /\ am_x m2 = Some [] else am_memory m2 = None).
  { rewrite I7, I8. exact X. }
  destruct (close_delivers m2 t2 w2 s id memory T2 (eq_trans I5 RAW) X2 W2 FIN) as (m' & EC & TY' & DV & _ & _).
  exists m'. split; [|split; [exact TY'|]].
  - rewrite arun_app, R. cbn [obind snd fst arun astep]. rewrite EC. reflexivity.
  - unfold delivered in *. rewrite I9, I0 in DV. exact DV.
Qed.
(** no units: the translator is created when the archive is closed *)
Lemma empty_closed : forall m memory id t r wt s, opened m id memory -> create_trans m = Ok (t, r) -> r = Some (id, memory) ->
  so_w (t_out t) = Some wt -> so_final (t_out (trans_close t)) = s ->
  exists m', arun m [Close] = Ok ([RVoid], m') /\ am_type m' = IO_INVALID /\ delivered m m' memory s.
Proof.
  intros m memory id t r wt s (TR & RAW & TY & BUF & X) CT -> WT FIN.
  set (m1 := set_trans m (am_buf m) (Some (t, Some (id, memory)))).
  destruct (close_delivers m1 t wt s id memory eq_refl RAW X WT FIN) as (m' & E & TY' & DV & _ & _).
  exists m'. split; [|split; [exact TY'|exact DV]].
  cbn [arun astep]. unfold close. rewrite TY, RAW, TR, CT. cbn [obind]. fold m1.
  unfold close in E. unfold m1 in E. cbn [am_trans am_type am_raw set_trans] in E. rewrite TY, RAW in E. cbn [obind] in E. fold m1 in E. rewrite E. reflexivity.
Qed.
Lemma created : forall m id mem s, am_buf m = Buffer id mem s -> exists t r wt, create_trans m = Ok (t, r) /\ so_w (t_out t) = Some wt.
Proof. intros m id mem s B. unfold create_trans. rewrite B. eexists _, _, _. split; reflexivity. Qed.
Lemma archive_document : forall m cs us id memory, opened m id memory -> writing cs us -> is_archive (am_a m) = true -> Forall good_unit us ->
  exists rs m', arun m (cs ++ [Close]) = Ok (rs ++ [RVoid], m') /\ Forall2 accepted cs rs /\ am_type m' = IO_INVALID /\
    delivered m m' memory (archive_doc (am_a m) (am_attributes m) us).
Proof.
  intros m cs us id memory OP WR AR G. pose proof OP as (TR & RAW & TY & BUF & X).
  destruct (created _ _ _ _ BUF) as (t & r & wt & CT & WT).
  destruct (prepare_ok (am_a m) m id memory [] t r CT eq_refl BUF) as (ER & F & OUT & O & M & F1 & P). rewrite AR in P. destruct P as (D & DW & W).
  cbn [app] in W. set (ps := pairs_of (a_macros (am_a m))) in *. set (n := element_name (root_namespaces (am_a m))) in *.
  set (w0 := Writer _ _ _ _) in W.
  assert (CLW : close_tag (macros_written ps w0) = Writer (doc_start (am_a m) (am_attributes m) ++ txt ">" ++ flat_map macro_xml ps) (Some [n]) false []).
  { destruct ps as [|p ps]; unfold macros_written, w0; unfold close_tag; cbn [w_intag w_out w_nodes w_ns]; [reflexivity|]. f_equal. cbn [attrs flat_map app]. rewrite <- !app_assoc. reflexivity. }
  assert (NW : w_nodes (macros_written ps w0) = Some [n]) by (destruct ps; reflexivity).
  assert (NSW : w_ns (macros_written ps w0) = []) by (destruct ps; reflexivity).
  destruct WR as [|ua u c cs us LT].
  - exists []. cbn [app].
    assert (FIN : so_final (t_out (trans_close t)) = archive_doc (am_a m) (am_attributes m) []).
    { rewrite (close_prepared t _ (or_introl F) OUT W). rewrite DW. unfold out_of, end_document. rewrite NW. cbn [length end_all w_out].
      unfold archive_doc, end_element. rewrite NW. fold ps n. unfold macro_list. fold ps. unfold doc_start, w0 in *.
      destruct ps as [|p ps]; cbn [macros_written w_intag w_out w_ns w_nodes close_tag attrs flat_map fst unit_xml app].
      - unfold doc_start. rewrite <- !app_assoc. reflexivity.
      - unfold doc_start. rewrite <- !app_assoc. reflexivity. }
    destruct (empty_closed m memory id t r wt _ OP CT ER WT FIN) as (m' & E1 & E2 & E3). exists m'. split; [exact E1|]. split; [constructor|]. split; assumption.
  - inversion G as [|x y G1 G2]; subst. destruct G1 as [C RB]. cbn [fst snd] in C, RB.
    destruct (unit_ok (am_a m) ua u c _ _ [n] M C F1 W NW NSW) as (t1 & E & M1 & F2 & D1 & DW1 & W1). cbn zeta in W1. rewrite AR in W1. rewrite D in D1, W1. cbn in D1.
    set (w1 := Writer _ _ _ _) in W1. set (m1 := set_trans m (am_buf m) (Some (t1, Some (id, memory)))).
    assert (S1 : started m1 t1 (Some (id, memory))) by (split; [exact TY|reflexivity]).
    destruct (units_ok (am_a m) cs us LT m1 t1 _ w1 [n] S1 M1 G2 F2 AR D1 DW1 W1 eq_refl eq_refl) as (rs & m2 & t2 & R & AC & SI & S2 & M2 & F3 & D2 & DW2 & W2).
    destruct M2 as (O2 & TB2 & R2 & OUT2).
    assert (N2 : w_nodes (units_written (am_a m) us w1) = Some [n]) by (destruct us; reflexivity).
    assert (NS2 : w_ns (units_written (am_a m) us w1) = []) by (destruct us; reflexivity).
    pose proof (close_archive (am_a m) t2 _ n F3 OUT2 O2 AR DW2 W2 N2 NS2) as FIN.
    assert (DOC : w_out (close_tag (units_written (am_a m) us w1)) ++ [10; 10] ++ txt "</" ++ n ++ txt ">" ++ [10] = archive_doc (am_a m) (am_attributes m) ((ua, u, c) :: us)).
    { assert (OW : w_out (close_tag (units_written (am_a m) us w1)) = doc_start (am_a m) (am_attributes m) ++ txt ">" ++ flat_map macro_xml ps ++ flat_map (fun x => [10; 10] ++ unit_doc (am_a m) 1 x) ((ua, u, c) :: us)).
      { transitivity (w_out w1 ++ flat_map (fun x => [10; 10] ++ unit_doc (am_a m) 1 x) us).
        - unfold units_written, w1. destruct us as [|x us]; [cbn [flat_map]; rewrite app_nil_r|]; rewrite close_closed; reflexivity.
        - unfold w1. cbn [w_out flat_map]. unfold write_raw. rewrite CLW. cbn [fst w_out w_nodes w_intag w_ns]. rewrite close_closed. cbn [w_out]. rewrite <- !app_assoc. reflexivity. }
      rewrite OW. unfold archive_doc, unit_xml, macro_list. fold ps n. unfold doc_start. rewrite <- !app_assoc. reflexivity. }
    rewrite DOC in FIN.
    assert (SI2 : same_io m m2) by (eapply same_io_trans; [|exact SI]; repeat split).
    assert (RR : arun m (WriteUnit (Some (ua, u)) :: cs) = Ok (RStatus ST_OK :: rs, m2)).
    { cbn [arun astep]. unfold write_unit. rewrite RB. cbn [negb]. rewrite TY, TR, CT. cbn [obind fst snd].
    rewrite add_prepared by exact OUT. rewrite E. cbn [obind fst snd]. fold m1. rewrite R. reflexivity. }
    destruct (doc_closed m _ _ memory id OP m2 t2 _ _ SI2 (proj2 S2) W2 FIN RR) as (m' & E1 & E2 & E3).
    exists (RStatus ST_OK :: rs), m'. split; [exact E1|]. split; [constructor; [intros _; reflexivity|exact AC]|]. split; assumption.
Qed.

(** ** Solitary archives *)
Lemma more_units : forall a cs us, later cs us -> forall m t r w, started m t r -> matches t a -> Forall good_unit us -> t_first t = false -> is_archive a = false ->
  so_depth (t_out t) = 1 -> so_didwrite (t_out t) = true -> so_w (t_out t) = Some (Writer w (Some []) false []) ->
  exists rs m' t', arun m cs = Ok (rs, m') /\ Forall2 accepted cs rs /\ same_io m m' /\ started m' t' r /\ matches t' a /\ t_first t' = false /\
    so_depth (t_out t') = 1 /\ so_didwrite (t_out t') = true /\ so_w (t_out t') = Some (Writer (w ++ flat_map (unit_doc a 1) us) (Some []) false []).
Proof.
  intros a cs us LT. induction LT as [|ua u c cs us LT IH|c cs us Q LT IH]; intros m t r w ST M G F AR D DW W.
  - exists [], m, t. split; [reflexivity|]. split; [constructor|]. split; [apply same_io_refl|]. repeat (split; [assumption|]). rewrite W. cbn [flat_map]. rewrite app_nil_r. reflexivity.
  - inversion G as [|x y G1 G2]; subst. destruct G1 as [C RB]. cbn [fst snd] in C, RB. destruct ST as [TY TR].
    destruct (unit_ok a ua u c t _ [] M C F W eq_refl eq_refl) as (t1 & E & M1 & F1 & D1 & DW1 & W1). cbn zeta in W1. rewrite AR in W1. rewrite D in D1, W1. cbn in D1.
    rewrite close_closed in W1. cbn [w_out] in W1.
    set (m1 := set_trans m (am_buf m) (Some (t1, r))).
    assert (S1 : started m1 t1 r) by (split; [exact TY|reflexivity]).
    destruct (IH m1 t1 r _ S1 M1 G2 F1 AR D1 DW1 W1) as (rs & m' & t' & R & AC & SI & S' & M' & F' & D' & DW' & W').
    exists (RStatus ST_OK :: rs), m', t'. split; [|split; [|split; [|repeat (split; [assumption|])]]].
    + cbn [arun astep]. unfold write_unit. rewrite RB. cbn [negb]. rewrite TY, TR. cbn [obind fst snd]. rewrite E. cbn [obind fst snd].
      fold m1. rewrite R. reflexivity.
    + constructor; [intros _; reflexivity|exact AC].
    + eapply same_io_trans; [|exact SI]. repeat split.
    + rewrite W'. cbn [flat_map]. rewrite <- app_assoc. reflexivity.
  - destruct ST as [TY TR]. destruct (quiet_step m c TY Q) as (r1 & m1 & E1 & SI1 & T1 & AC1).
    assert (S1 : started m1 t r) by (split; [rewrite (proj1 SI1); exact TY|rewrite T1; exact TR]).
    destruct (IH m1 t r w S1 M G F AR D DW W) as (rs & m' & t' & R & AC & SI & S' & M' & F' & D' & DW' & W').
    exists (r1 :: rs), m', t'. split; [|split; [|split; [|repeat (split; [assumption|])]]].
    + cbn [arun]. rewrite E1. cbn [obind fst snd]. rewrite R. reflexivity.
    + constructor; assumption.
    + eapply same_io_trans; eassumption.
    + exact W'.
Qed.
Lemma solitary_document : forall m cs us id memory, opened m id memory -> writing cs us -> is_archive (am_a m) = false -> Forall good_unit us ->
  exists rs m', arun m (cs ++ [Close]) = Ok (rs ++ [RVoid], m') /\ Forall2 accepted cs rs /\ am_type m' = IO_INVALID /\
    delivered m m' memory (xml_declaration (am_a m) ++ instruction (am_a m) ++ solitary_all (am_a m) us ++
      match us, a_pi (am_a m) with [], None => [] | _, _ => [10] end).
Proof.
  intros m cs us id memory OP WR AR G. pose proof OP as (TR & RAW & TY & BUF & X).
  destruct (created _ _ _ _ BUF) as (t & r & wt & CT & WT).
  destruct (prepare_ok (am_a m) m id memory [] t r CT eq_refl BUF) as (ER & F & OUT & O & M & F1 & P). rewrite AR in P. destruct P as (D & DW & W).
  cbn [app] in W.
  destruct WR as [|ua u c cs us LT].
  - exists []. cbn [app solitary_all].
    match goal with |- context [delivered _ _ _ ?d] => assert (FIN : so_final (t_out (trans_close t)) = d); [|destruct (empty_closed m memory id t r wt _ OP CT ER WT FIN) as (m' & E1 & E2 & E3); exists m'; split; [exact E1|]; split; [constructor|]; split; [exact E2|exact E3]] end.
    rewrite (close_prepared t _ (or_introl F) OUT W), DW. unfold out_of. destruct (a_pi (am_a m)); cbn [end_document w_nodes w_out length end_all];
      [rewrite <- app_assoc; reflexivity|rewrite app_nil_r; reflexivity].
  - inversion G as [|x y G1 G2]; subst. destruct G1 as [C RB]. cbn [fst snd] in C, RB.
    destruct (unit_ok (am_a m) ua u c _ _ [] M C F1 W eq_refl eq_refl) as (t1 & E & M1 & F2 & D1 & DW1 & W1). cbn zeta in W1. rewrite AR in W1. rewrite D in D1, W1. cbn in D1.
    rewrite close_closed in W1. cbn [w_out] in W1.
    set (m1 := set_trans m (am_buf m) (Some (t1, Some (id, memory)))).
    assert (S1 : started m1 t1 (Some (id, memory))) by (split; [exact TY|reflexivity]).
    destruct (more_units (am_a m) cs us LT m1 t1 _ _ S1 M1 G2 F2 AR D1 DW1 W1) as (rs & m2 & t2 & R & AC & SI & S2 & M2 & F3 & D2 & DW2 & W2).
    destruct M2 as (O2 & TB2 & R2 & OUT2).
    assert (P2 : prepare_output t2 = t2) by (unfold prepare_output; rewrite F3; reflexivity).
    assert (NA : opt (so_options (t_out t2)) B_ARCHIVE = false) by (rewrite O2; exact AR).
    pose proof (close_prepared t2 _ (or_intror NA) OUT2 ltac:(rewrite P2; exact W2)) as FIN. rewrite P2, DW2 in FIN. cbn [out_of end_document w_nodes w_out length end_all] in FIN.
    assert (SI2 : same_io m m2) by (eapply same_io_trans; [|exact SI]; repeat split).
    assert (RR : arun m (WriteUnit (Some (ua, u)) :: cs) = Ok (RStatus ST_OK :: rs, m2)).
    { cbn [arun astep]. unfold write_unit. rewrite RB. cbn [negb]. rewrite TY, TR, CT. cbn [obind fst snd].
      rewrite add_prepared by exact OUT. rewrite E. cbn [obind fst snd]. fold m1. rewrite R. reflexivity. }
    destruct (doc_closed m _ _ memory id OP m2 t2 _ _ SI2 (proj2 S2) W2 FIN RR) as (m' & E1 & E2 & E3).
    exists (RStatus ST_OK :: rs), m'. split; [exact E1|]. split; [constructor; [intros _; reflexivity|exact AC]|]. split; [exact E2|].
    cbn [solitary_all]. rewrite <- !app_assoc in E3. rewrite <- !app_assoc. destruct (a_pi (am_a m)); exact E3.
Qed.
