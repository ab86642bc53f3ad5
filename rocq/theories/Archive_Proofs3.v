(** Histories of calls on an archive (C23, C24, C36) and concrete cases. *)
From Verif Require Import Base Text_Model Text_Spec Text_Proofs Text_Proofs2 Text_Proofs3 Api_Model Api_Proofs Api_Proofs3 Writer_Model Writer_Spec Writer_Proofs Writer_Proofs2 Writer_Proofs3 Writer_Proofs4 Writer_Proofs7 Writer_Proofs8 Writer_Proofs9 Writer_Proofs10 Archive_Model Archive_Spec Archive_Proofs Archive_Proofs2.
Local Open Scope N_scope.

(** ** The mode *)
Lemma close_type : forall m m', close m = Ok m' -> am_type m' = IO_INVALID.
Proof.
  intros m m' H. unfold close in H. destruct (match am_type m, am_raw m, am_trans m with IO_WRITE, false, None => _ | _, _, _ => _ end) as [m1|]; [|discriminate H]. cbn [obind] in H.
  destruct (if am_raw (close_trans m1) then _ else _) as [m2|]; [|discriminate H]. cbn [obind] in H. injection H as <-. reflexivity.
Qed.
Lemma raw_type : forall m s m', write_raw_string m s = Ok m' -> am_type m' = am_type m.
Proof.
  intros m s m' H. unfold write_raw_string in H. destruct (am_buf m) as [|id mem b|]; [injection H as <-; reflexivity| |discriminate].
  destruct (am_trans m) as [[t [[id' mem']|]]|]; [destruct (Nat.eqb id id')| |]; injection H as <-; reflexivity.
Qed.
Lemma write_type : forall m ua u r m', write_unit m ua u = Ok (r, m') -> am_type m' = am_type m.
Proof.
  intros m ua u r m' H. unfold write_unit in H. destruct (negb (uo_read_body u)); [injection H as _ <-; reflexivity|].
  destruct (am_type m) eqn:T; try (injection H as _ <-; exact T);
  (destruct (match am_trans m with Some t => Ok t | None => create_trans m end) as [t|]; [|discriminate H]; cbn [obind] in H;
   destruct (add_unit ua (fst t) u) as [r0|]; [|discriminate H]; cbn [obind] in H; injection H as _ <-; exact T).
Qed.
Lemma step_mode : forall m c r m', astep m c = Ok (r, m') -> am_type m' = match opening c with Some t => t | None => am_type m end.
Proof.
  intros m c r m' H. destruct c as [[]|[] ok|[] [[[? ?] ?]|]|[[ua u]|]|[s|] len| | | |c]; cbn [astep negb opening] in *;
    try (injection H as _ <-; reflexivity).
  - apply (write_type _ _ _ _ _ H).
  - destruct (len <? 0)%Z; [injection H as _ <-; reflexivity|]. destruct (Z.of_nat (length s) <? len)%Z; [discriminate H|].
    destruct (write_raw_string m _) eqn:E; [|discriminate H]. cbn [obind] in H. injection H as _ <-. apply (raw_type _ _ _ E).
  - destruct (am_type m) eqn:T; try (injection H as _ <-; exact T); (destruct (am_reader m) as [[|x y]|]; [| |discriminate H]; injection H as _ <-; [exact T|reflexivity]).
  - destruct (am_type m) eqn:T; try (injection H as _ <-; exact T); (destruct (am_reader m) as [[|x y]|]; [| |discriminate H]; injection H as _ <-; [exact T|reflexivity]).
  - destruct (close m) eqn:E; [|discriminate H]. cbn [obind] in H. injection H as _ <-. apply (close_type _ _ E).
Qed.
Lemma mode_ok : forall cs m rs m', arun m cs = Ok (rs, m') -> am_type m' = mode_after (am_type m) cs.
Proof.
  induction cs as [|c cs IH]; intros m rs m' H; cbn [arun mode_after] in *; [injection H as _ <-; reflexivity|].
  destruct (astep m c) as [[r m1]|] eqn:E; [|discriminate H]. cbn [obind fst snd] in H. destruct (arun m1 cs) as [[q m2]|] eqn:E2; [|discriminate H]. cbn [obind fst snd] in H.
  injection H as _ <-. rewrite (IH _ _ _ E2). rewrite (step_mode _ _ _ _ E). reflexivity.
Qed.
(** ** Refused calls *)
Lemma rw_never : forall h m rs, arun new_am h = Ok (rs, m) -> am_type m <> IO_RW.
Proof.
  intros h m rs H. rewrite (mode_ok _ _ _ _ H). cbn [am_type new_am]. clear H. assert (G : forall t, t <> IO_RW -> mode_after t h <> IO_RW).
  { induction h as [|c h IH]; intros t T; [exact T|]. cbn [mode_after]. apply IH. destruct c as [[]|[] ok|[] [[[? ?] ?]|]|[[ua u]|]|[s|] len| | | |c]; cbn [opening]; try discriminate; exact T. }
  apply G. discriminate.
Qed.
Lemma write_refused : forall h m rs, arun new_am h = Ok (rs, m) ->
  (astep m (WriteUnit None) = Ok (RStatus ST_INVALID_ARGUMENT, m)) /\
  (forall ua u, uo_read_body u = false -> astep m (WriteUnit (Some (ua, u))) = Ok (RStatus ST_UNINITIALIZED_UNIT, m)) /\
  (forall ua u, uo_read_body u = true -> mode_after IO_INVALID h <> IO_WRITE -> astep m (WriteUnit (Some (ua, u))) = Ok (RStatus ST_INVALID_IO_OPERATION, m)).
Proof.
  intros h m rs H. split; [reflexivity|]. split; intros ua u B; cbn [astep]; unfold write_unit; rewrite B; cbn [negb]; [reflexivity|].
  intros T. pose proof (mode_ok _ _ _ _ H) as E. cbn [am_type new_am] in E. rewrite <- E in T. pose proof (rw_never _ _ _ H). destruct (am_type m); try reflexivity; contradiction.
Qed.
Lemma read_refused : forall h m rs, arun new_am h = Ok (rs, m) -> mode_after IO_INVALID h <> IO_READ ->
  astep m ReadUnit = Ok (RUnit None, m) /\ astep m SkipUnit = Ok (RInt 0, m).
Proof.
  intros h m rs H T. pose proof (mode_ok _ _ _ _ H) as E. cbn [am_type new_am] in E. rewrite <- E in T. pose proof (rw_never _ _ _ H). cbn [astep].
  destruct (am_type m); try (split; reflexivity); contradiction.
Qed.
(** ** Reading *)
Lemma reading_ok : forall cs m us, am_type m = IO_READ -> am_reader m = Some us -> Forall reading cs ->
  exists rs m', arun m cs = Ok (rs, m') /\ filter is_read rs = read_results us cs.
Proof.
  induction cs as [|c cs IH]; intros m us T R F; [exists [], m; split; reflexivity|]. inversion F as [|x y F1 F2]; subst.
  assert (GO : forall r m1, astep m c = Ok (r, m1) -> am_type m1 = IO_READ -> forall us1, am_reader m1 = Some us1 -> read_results us (c :: cs) = (if is_read r then [r] else []) ++ read_results us1 cs ->
    exists rs m', arun m (c :: cs) = Ok (rs, m') /\ filter is_read rs = read_results us (c :: cs)).
  { intros r m1 E T1 us1 R1 RR. destruct (IH m1 us1 T1 R1 F2) as (rs & m' & E2 & G). exists (r :: rs), m'. cbn [arun]. rewrite E. cbn [obind fst snd]. rewrite E2.
    split; [reflexivity|]. rewrite RR. cbn [filter]. rewrite <- G. destruct (is_read r); reflexivity. }
  destruct c as [[]|[] ok|[] [[[? ?] ?]|]|[[ua u]|]|[s|] len| | | |c]; cbn in F1; try contradiction; cbn [read_results];
    try (eapply GO; [reflexivity|exact T|exact R|reflexivity]).
  - destruct (uo_read_body u) eqn:B; (eapply GO; [cbn [astep]; unfold write_unit; rewrite T, B; reflexivity|exact T|exact R|reflexivity]).
  - apply Z.ltb_lt in F1. eapply GO; [cbn [astep]; rewrite F1; reflexivity|exact T|exact R|reflexivity].
  - destruct us as [|u us]; eapply GO; [cbn [astep]; rewrite T, R; reflexivity|exact T|exact R|reflexivity|cbn [astep]; rewrite T, R; reflexivity|reflexivity|reflexivity|reflexivity].
  - destruct us as [|u us]; eapply GO; [cbn [astep]; rewrite T, R; reflexivity|exact T|exact R|reflexivity|cbn [astep]; rewrite T, R; reflexivity|reflexivity|reflexivity|reflexivity].
Qed.
Lemma reading_opened : forall h m rs a al us cs, arun new_am h = Ok (rs, m) -> Forall reading cs ->
  exists qs m', arun m (OpenRead true (Some (a, al, us)) :: cs) = Ok (RStatus ST_OK :: qs, m') /\ filter is_read qs = read_results us cs.
Proof.
  intros h m rs a al us cs H F. cbn [arun astep negb obind fst snd].
  match goal with |- context [arun ?x cs] => destruct (reading_ok cs x us eq_refl eq_refl F) as (qs & m' & E & G) end.
  exists qs, m'. rewrite E. split; [reflexivity|exact G].
Qed.
(** ** Histories that have not written *)
Definition clean_state (m : am) : Prop := am_trans m = None /\ am_raw m = false /\ (am_type m = IO_READ -> am_reader m <> None) /\ am_type m <> IO_RW.
Lemma unwritten_step : forall m c, clean_state m -> writes_nothing (am_type m) c -> exists r m', astep m c = Ok (r, m') /\ clean_state m'.
Proof.
  intros m c (T & R & RD & RW) W. destruct c as [[]|[] ok|[] [[[? ?] ?]|]|[[ua u]|]|[s|] len| | | |c]; cbn [astep negb];
    try (eexists _, _; split; [reflexivity|]; repeat split; cbn [am_trans am_raw am_type am_reader]; try assumption; discriminate).
  - cbn in W. unfold write_unit. destruct (uo_read_body u) eqn:B; cbn [negb].
    + destruct W as [W|W]; [|discriminate W]. destruct (am_type m) eqn:TT; try contradiction; (eexists _, _; split; [reflexivity|]; repeat split; rewrite ?TT; assumption || (rewrite TT; discriminate) || (intros _; exact (RD eq_refl)) || discriminate).
    + eexists _, _; split; [reflexivity|]; repeat split; assumption.
  - cbn in W. apply Z.ltb_lt in W. rewrite W. eexists _, _; split; [reflexivity|]; repeat split; assumption.
  - destruct (am_type m) eqn:TT; try contradiction; try (eexists _, _; split; [reflexivity|]; repeat split; rewrite ?TT; try assumption; discriminate).
    destruct (am_reader m) as [[|x y]|] eqn:RR; [| |exfalso; apply RD; reflexivity]; eexists _, _; (split; [reflexivity|]); repeat split; cbn [am_trans am_raw am_type am_reader]; rewrite ?TT; try assumption; try discriminate; rewrite ?RR; intros; discriminate.
  - destruct (am_type m) eqn:TT; try contradiction; try (eexists _, _; split; [reflexivity|]; repeat split; rewrite ?TT; try assumption; discriminate).
    destruct (am_reader m) as [[|x y]|] eqn:RR; [| |exfalso; apply RD; reflexivity]; eexists _, _; (split; [reflexivity|]); repeat split; cbn [am_trans am_raw am_type am_reader]; rewrite ?TT; try assumption; try discriminate; rewrite ?RR; intros; discriminate.
  - cbn in W. unfold close. rewrite R, T.
    assert (E : (match am_type m, false, @None (trans * option (nat * bool)) with IO_WRITE, false, None => obind (create_trans m) (fun t => Ok (set_trans m (am_buf m) (Some t))) | _, _, _ => Ok m end) = Ok m) by (destruct (am_type m); try reflexivity; contradiction).
    rewrite E. cbn [obind]. unfold close_trans. rewrite T, R. cbn [obind].
    eexists _, _; split; [reflexivity|]. destruct (am_memory m); repeat split; cbn [am_trans am_raw am_type am_reader]; try assumption; discriminate.
Qed.
Lemma unwritten_run : forall cs m, clean_state m -> unwritten (am_type m) cs -> exists rs m', arun m cs = Ok (rs, m') /\ clean_state m'.
Proof.
  induction cs as [|c cs IH]; intros m C U; [exists [], m; split; [reflexivity|exact C]|]. cbn [unwritten] in U. destruct U as [U1 U2].
  destruct (unwritten_step m c C U1) as (r & m1 & E & C1). pose proof (step_mode _ _ _ _ E) as M. rewrite <- M in U2.
  destruct (IH m1 C1 U2) as (rs & m' & E2 & C2). exists (r :: rs), m'. split; [|exact C2]. cbn [arun]. rewrite E. cbn [obind fst snd]. rewrite E2. reflexivity.
Qed.
Lemma new_clean : clean_state new_am. Proof. repeat split; discriminate. Qed.
Lemma quiet_opened : forall q m id memory, opened m id memory -> Forall quiet q -> exists rs m', arun m q = Ok (rs, m') /\ opened m' id memory.
Proof.
  induction q as [|c q IH]; intros m id memory O F; [exists [], m; split; [reflexivity|exact O]|]. inversion F as [|x y F1 F2]; subst.
  pose proof O as (TR & RAW & TY & BUF & X). destruct (quiet_step m c TY F1) as (r & m1 & E & (I3&I4&I5&I6&I7&I8&I9&I0&IA) & T1 & _).
  assert (O1 : opened m1 id memory).
  { unfold opened. rewrite T1, I3, I4, I5, I7, I8. exact O. }
  destruct (IH m1 id memory O1 F2) as (rs & m' & E2 & O2). exists (r :: rs), m'. split; [|exact O2]. cbn [arun]. rewrite E. cbn [obind fst snd]. rewrite E2. reflexivity.
Qed.
Lemma memory_none : forall cs m rs m', arun m cs = Ok (rs, m') -> am_memory m = None -> Forall not_memory cs -> am_memory m' = None.
Proof.
  assert (CL : forall m m', close m = Ok m' -> am_memory m' = am_memory m).
  { intros m m' H. unfold close in H. destruct (match am_type m, am_raw m, am_trans m with IO_WRITE, false, None => _ | _, _, _ => _ end) as [m1|] eqn:E1; [|discriminate H].
    assert (M1 : am_memory m1 = am_memory m).
    { destruct (am_type m), (am_raw m), (am_trans m); try (injection E1 as <-; reflexivity). destruct (create_trans m); [|discriminate]. cbn [obind] in E1. injection E1 as <-. reflexivity. }
    cbn [obind] in H.
    assert (M2 : am_memory (close_trans m1) = am_memory m).
    { unfold close_trans. destruct (am_trans m1) as [[t [[id mem]|]]|]; [destruct (so_w (t_out t))|destruct (so_w (t_out t))|]; exact M1. }
    destruct (if am_raw (close_trans m1) then _ else _) as [m2|] eqn:E2; [|discriminate H].
    assert (M3 : am_memory m2 = am_memory m).
    { destruct (am_raw (close_trans m1)); [|injection E2 as <-; exact M2]. destruct (am_buf (close_trans m1)); [| |discriminate]; injection E2 as <-; exact M2. }
    cbn [obind] in H. injection H as <-. destruct (am_memory m2) eqn:Q; cbn [am_memory]; rewrite <- ?Q; exact M3 || (rewrite Q; exact M3). }
  induction cs as [|c cs IH]; intros m rs m' H M F; cbn [arun] in H; [injection H as _ <-; exact M|]. inversion F as [|x y F1 F2]; subst.
  destruct (astep m c) as [[r m1]|] eqn:E; [|discriminate H]. cbn [obind fst snd] in H. destruct (arun m1 cs) as [[q m2]|] eqn:E2; [|discriminate H]. cbn [obind fst snd] in H.
  injection H as _ <-. apply (IH _ _ _ E2); [|exact F2].
  destruct c as [[]|[] ok|[] [[[? ?] ?]|]|[[ua u]|]|[s|] len| | | |c]; cbn [astep negb] in E; try contradiction; try (injection E as _ <-; exact M).
  - unfold write_unit in E. destruct (negb (uo_read_body u)); [injection E as _ <-; exact M|].
    destruct (am_type m) eqn:T; try (injection E as _ <-; exact M);
    (destruct (match am_trans m with Some t => Ok t | None => create_trans m end) as [t|]; [|discriminate E]; cbn [obind] in E;
     destruct (add_unit ua (fst t) u) as [r0|]; [|discriminate E]; cbn [obind] in E; injection E as _ <-; exact M).
  - destruct (len <? 0)%Z; [injection E as _ <-; exact M|]. destruct (Z.of_nat (length s) <? len)%Z; [discriminate E|].
    destruct (write_raw_string m _) as [mm|] eqn:W; [|discriminate E]. cbn [obind] in E. injection E as _ <-. unfold write_raw_string in W.
    destruct (am_buf m) as [|id mem b|]; [injection W as <-; exact M| |discriminate].
    destruct (am_trans m) as [[t [[id' mem']|]]|]; [destruct (Nat.eqb id id')| |]; injection W as <-; exact M.
  - destruct (am_type m); try (injection E as _ <-; exact M); (destruct (am_reader m) as [[|x y]|]; [| |discriminate E]; injection E as _ <-; exact M).
  - destruct (am_type m); try (injection E as _ <-; exact M); (destruct (am_reader m) as [[|x y]|]; [| |discriminate E]; injection E as _ <-; exact M).
  - destruct (close m) eqn:Q; [|discriminate E]. cbn [obind] in E. injection E as _ <-. rewrite (CL _ _ Q). exact M.
Qed.
(** an archive on which nothing has been written, opened *)
Lemma opens : forall h q (memory : bool), unwritten IO_INVALID h -> Forall quiet q -> (memory = false -> Forall not_memory h) ->
  exists rs m id, arun new_am (h ++ (if memory then OpenMemory true else OpenOutput true true) :: q) = Ok (rs, m) /\ opened m id memory.
Proof.
  intros h q memory U Q NM. destruct (unwritten_run h new_am new_clean U) as (rs & m & E & (T & R & _)).
  set (o := if memory then OpenMemory true else OpenOutput true true).
  assert (X : exists r m1, astep m o = Ok (r, m1) /\ opened m1 (am_next m) memory).
  { unfold o. destruct memory; cbn [astep negb].
    - eexists _, _. split; [reflexivity|]. repeat split; assumption.
    - pose proof (memory_none _ _ _ _ E eq_refl (NM eq_refl)). eexists _, _. split; [reflexivity|]. repeat split; assumption. }
  destruct X as (r & m1 & E1 & O1). destruct (quiet_opened q m1 _ memory O1 Q) as (qs & m2 & E2 & O2).
  exists (rs ++ r :: qs), m2, (am_next m). split; [|exact O2]. rewrite arun_app, E. cbn [obind fst snd arun]. rewrite E1. cbn [obind fst snd]. rewrite E2. reflexivity.
Qed.
Lemma documents : forall h q (memory : bool) cs us, unwritten IO_INVALID h -> Forall quiet q -> (memory = false -> Forall not_memory h) -> writing cs us -> Forall good_unit us ->
  exists rs m qs m', arun new_am (h ++ (if memory then OpenMemory true else OpenOutput true true) :: q) = Ok (rs, m) /\
    arun m (cs ++ [Close]) = Ok (qs ++ [RVoid], m') /\ Forall2 accepted cs qs /\ am_type m' = IO_INVALID /\
    let a := am_a m in
    delivered m m' memory
      (if is_archive a then archive_doc a (am_attributes m) us
       else xml_declaration a ++ instruction a ++ solitary_all a us ++ match us, a_pi a with [], None => [] | _, _ => [10] end).
Proof.
  intros h q memory cs us U Q NM W G. destruct (opens h q memory U Q NM) as (rs & m & id & E & O). exists rs, m. cbv zeta. destruct (is_archive (am_a m)) eqn:A.
  - destruct (archive_document m cs us id memory O W A G) as (qs & m' & E2 & AC & T & D). exists qs, m'. repeat (split; [assumption|]). exact D.
  - destruct (solitary_document m cs us id memory O W A G) as (qs & m' & E2 & AC & T & D). exists qs, m'. repeat (split; [assumption|]). exact D.
Qed.
Lemma settings_ok : forall cs m rs m', arun m cs = Ok (rs, m') -> Forall no_input cs -> am_a m' = run (settings cs) (am_a m) /\ am_attributes m' = am_attributes m.
Proof.
  assert (CL : forall m m', close m = Ok m' -> am_a m' = am_a m /\ am_attributes m' = am_attributes m).
  { intros m m' H. unfold close in H. destruct (match am_type m, am_raw m, am_trans m with IO_WRITE, false, None => _ | _, _, _ => _ end) as [m1|] eqn:E1; [|discriminate H].
    assert (M1 : am_a m1 = am_a m /\ am_attributes m1 = am_attributes m).
    { destruct (am_type m), (am_raw m), (am_trans m); try (injection E1 as <-; split; reflexivity). destruct (create_trans m); [|discriminate]. cbn [obind] in E1. injection E1 as <-. split; reflexivity. }
    cbn [obind] in H.
    assert (M2 : am_a (close_trans m1) = am_a m /\ am_attributes (close_trans m1) = am_attributes m).
    { unfold close_trans. destruct (am_trans m1) as [[t [[id mem]|]]|]; [destruct (so_w (t_out t))|destruct (so_w (t_out t))|]; exact M1. }
    destruct (if am_raw (close_trans m1) then _ else _) as [m2|] eqn:E2; [|discriminate H].
    assert (M3 : am_a m2 = am_a m /\ am_attributes m2 = am_attributes m).
    { destruct (am_raw (close_trans m1)); [|injection E2 as <-; exact M2]. destruct (am_buf (close_trans m1)); [| |discriminate]; injection E2 as <-; exact M2. }
    cbn [obind] in H. injection H as <-. destruct (am_memory m2); exact M3. }
  induction cs as [|c cs IH]; intros m rs m' H F; cbn [arun settings] in *; [injection H as _ <-; split; reflexivity|]. inversion F as [|x y F1 F2]; subst.
  destruct (astep m c) as [[r m1]|] eqn:E; [|discriminate H]. cbn [obind fst snd] in H. destruct (arun m1 cs) as [[q m2]|] eqn:E2; [|discriminate H]. cbn [obind fst snd] in H.
  injection H as _ <-. destruct (IH _ _ _ E2 F2) as [A1 A2].
  assert (ID : am_a m1 = am_a m /\ am_attributes m1 = am_attributes m -> am_a m2 = run (settings cs) (am_a m) /\ am_attributes m2 = am_attributes m) by (intros [<- <-]; split; assumption).
  destruct c as [[]|[] ok|[] [[[? ?] ?]|]|[[ua u]|]|[s|] len| | | |c]; cbn [astep negb] in E; try contradiction; cbn [settings]; try (injection E as _ <-; apply ID; split; reflexivity).
  - apply ID. unfold write_unit in E. destruct (negb (uo_read_body u)); [injection E as _ <-; split; reflexivity|].
    destruct (am_type m) eqn:T; try (injection E as _ <-; split; reflexivity);
    (destruct (match am_trans m with Some t => Ok t | None => create_trans m end) as [t|]; [|discriminate E]; cbn [obind] in E;
     destruct (add_unit ua (fst t) u) as [r0|]; [|discriminate E]; cbn [obind] in E; injection E as _ <-; split; reflexivity).
  - apply ID. destruct (len <? 0)%Z; [injection E as _ <-; split; reflexivity|]. destruct (Z.of_nat (length s) <? len)%Z; [discriminate E|].
    destruct (write_raw_string m _) as [mm|] eqn:W; [|discriminate E]. cbn [obind] in E. injection E as _ <-. unfold write_raw_string in W.
    destruct (am_buf m) as [|id mem b|]; [injection W as <-; split; reflexivity| |discriminate].
    destruct (am_trans m) as [[t [[id' mem']|]]|]; [destruct (Nat.eqb id id')| |]; injection W as <-; split; reflexivity.
  - apply ID. destruct (am_type m); try (injection E as _ <-; split; reflexivity); (destruct (am_reader m) as [[|x y]|]; [| |discriminate E]; injection E as _ <-; split; reflexivity).
  - apply ID. destruct (am_type m); try (injection E as _ <-; split; reflexivity); (destruct (am_reader m) as [[|x y]|]; [| |discriminate E]; injection E as _ <-; split; reflexivity).
  - apply ID. destruct (close m) eqn:Q; [|discriminate E]. cbn [obind] in E. injection E as _ <-. apply (CL _ _ Q).
  - destruct (step (am_a m) c) as [st a'] eqn:S. injection E as _ <-. cbn [am_a am_attributes] in A1, A2. split; [|exact A2].
    unfold run. unfold run in A1. cbn [fold_left]. rewrite S. exact A1.
Qed.
