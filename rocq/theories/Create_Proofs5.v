(** Creating srcML: from the request to the document (C57). *)
From Verif Require Import Base Text_Model Text_Spec Text_Proofs3 Api_Model Api_Spec Api_Proofs Api_Proofs3 Writer_Model Writer_Spec Archive_Model Archive_Spec Archive_Proofs2 Archive_Proofs3 Archive_Proofs4 Input_Model Create_Model Create_Spec Create_Proofs Create_Proofs2 Create_Proofs3 Create_Proofs4.
Local Open Scope N_scope.

Lemma lone_single : forall r (ins : list (input_src * input)), lone r (map fst ins) = true -> exists s i, ins = [(s, i)] /\ lone r [s] = true.
Proof. intros r [|[s i] [|x ins]] H; try discriminate H. exists s, i. split; [reflexivity|exact H]. Qed.
Lemma lone_none : forall r ins, lone r (map fst ins) = false -> single r ins = None.
Proof. intros r [|[s i] [|x ins]] H; try reflexivity. unfold single. cbn [map fst] in H. rewrite H. reflexivity. Qed.
Lemma lone_kind : forall v r s, lone r [s] = true -> handler v s <> HList /\ handler v s <> HDirectory.
Proof.
  intros v r s H. unfold lone in H. apply andb_prop in H. destruct H as [H _]. apply andb_prop in H. destruct H as [H H3]. apply andb_prop in H. destruct H as [H1 _].
  unfold handler. destruct (beqb (in_protocol s) (txt "filelist")); [discriminate H1|]. destruct (in_isdir s); [discriminate H3|]. rewrite andb_false_r.
  destruct (in_state s); try (split; discriminate); (destruct (beqb (in_protocol s) (txt "text")); [split; discriminate|]); (destruct (_ && _); [destruct v|]; split; discriminate).
Qed.
Lemma container_plural : forall r i, container i = true -> plural r i = true.
Proof. intros r [] H; try discriminate H. exact H. Qed.
Lemma no_sets_map : forall ms, sets_of ms = [] -> ms = map MSchedule (scheduled ms).
Proof. induction ms as [|[c|q] ms IH]; intros H; [reflexivity|discriminate H|]. cbn [scheduled flat_map app map]. f_equal. apply IH, H. Qed.
Lemma map_eset : forall q, scalar q = false -> exists L, write_request Plain q = map ESet L ++ map EUnit (units_of q) /\ L = if several q then [DisableSolitary] else [].
Proof.
  intros [w|[|b|s|s|us] u] S; try discriminate S; cbn [write_request].
  - exists []. split; reflexivity.
  - exists []. destruct u as [[own v]|]; split; reflexivity.
  - destruct us as [|v [|v' us]].
    + exists []. destruct u as [[own v]|]; split; reflexivity.
    + exists []. split; reflexivity.
    + exists [DisableSolitary]. cbn [length Nat.ltb Nat.leb]. rewrite app_nil_r. split; reflexivity.
Qed.
Definition ready (a : archive) (us : list cunit) (t : list eop) : Prop := op_units t = us /\ Forall op_quiet t /\ Forall (noop a) (op_sets t).
Lemma early_app : forall x y, disables (x ++ y) = disables x || disables y. Proof. intros. apply existsb_app. Qed.
Lemma hashes_app : forall x y, hashes (x ++ y) = hashes x || hashes y. Proof. intros. apply existsb_app. Qed.
(** the calls: settings as asked for, then the units among settings that change nothing *)
Lemma staged_run : forall v r ins cs ms w fl, c_mode r = Plain -> setup r (map fst ins) = Ok (Some cs) -> handle r ins = Some (ms, w, false, fl) -> fits v ins -> ordered r ins ->
  Forall (fun q => scalar q = false) (all_sources ins) ->
  exists L, requested r ins (run (cs ++ L) archive_create) /\ (as_archive r ins = false -> (length (flat_map units_of (all_sources ins)) <= 1)%nat) /\
    forall t, interleave (c_mode r) ms [] t -> exists t', t = map ESet L ++ t' /\ ready (run (cs ++ L) archive_create) (flat_map units_of (all_sources ins)) t'.
Proof.
  intros v r ins cs ms w fl MO SE HA FI OR SC. rewrite MO. pose proof (handle_scheduled _ _ _ _ _ HA) as SCH. pose proof (handle_regs _ _ _ _ _ HA) as REG. unfold regs_of in REG.
  destruct (lone r (map fst ins)) eqn:LO.
  - destruct (lone_single _ _ LO) as (s & i & -> & LO'). inversion FI as [|x y [K SO] _]; subst. cbn [fst snd] in K, SO. destruct (lone_kind v r s LO') as [K1 K2]. rewrite K in K1, K2.
    destruct (handle_cons _ _ _ _ _ _ _ HA) as (F & ms' & w' & fl' & HA' & E). injection HA' as <- <- <-. rewrite app_nil_r in E. subst ms.
    assert (LV : all_leaves [(s, i)] = [i]) by (unfold all_leaves; cbn [flat_map snd]; destruct i; try reflexivity; exfalso; apply K1; reflexivity).
    assert (SR : is_srcml i = true -> c_output_xml r = true).
    { intros Q. unfold ordered in OR. rewrite LV in OR. destruct (c_output_xml r); [reflexivity|]. cbn [forallb] in OR. rewrite Q in OR. discriminate OR. }
    destruct (lone_events r i K1 K2 F SO SR) as (pre & rest & EV & P1 & P2 & P3 & P4 & P5 & P6). rewrite EV in SCH, REG. rewrite scheduled_app, scheduled_sets in SCH. cbn [app] in SCH.
    rewrite sets_of_app, ns_regs_app, P5, sets_of_map, app_nil_r in REG.
    assert (SI : single r [(s, i)] = Some i) by (unfold single; rewrite LO'; reflexivity).
    destruct (plural r i) eqn:PL.
    + exists pre. 
      assert (RQ : requested r [(s, i)] (run (cs ++ pre) archive_create)).
      { apply settings_asked; try assumption.
        - rewrite LO, P2. unfold as_archive. rewrite SI, PL. reflexivity.
        - rewrite LO, P3. unfold with_hash. rewrite SI. reflexivity. }
      split; [exact RQ|]. split; [unfold as_archive; rewrite SI, PL; discriminate|]. intros t IL. rewrite EV in IL. destruct (interleave_pre _ _ _ _ IL) as (t' & -> & IL'). exists t'. split; [reflexivity|].
      rewrite <- SCH in SC. destruct (interleave_plain _ _ _ IL' SC ltac:(constructor)) as (U & Q & ST). rewrite SCH in U. split; [exact U|]. split; [exact Q|]. apply Forall_forall. intros c C.
      assert (NA : noop (run (cs ++ pre) archive_create) DisableSolitary) by (apply archive_noop; rewrite (d_options _ _ _ RQ); unfold option_bit; cbn; unfold as_archive; rewrite SI, PL; reflexivity).
      destruct (ST c C) as [[]|[I1|[-> _]]]; [|exact NA]. rewrite Forall_forall in P4. destruct (P4 c I1) as [[-> _]|[-> CO]]; [exact NA|].
      apply hash_noop. rewrite (d_options _ _ _ RQ). unfold option_bit. cbn. unfold with_hash. rewrite SI, CO. apply orb_true_r.
    + specialize (P6 eq_refl). assert (CF : container i = false) by (destruct (container i) eqn:Q; [rewrite (container_plural r i Q) in PL; discriminate PL|reflexivity]).
      assert (SR0 : sets_of rest = []).
      { destruct (sets_of rest) as [|c l]; [reflexivity|]. inversion P4 as [|x y Q _]; subst. destruct Q as [[_ Q]|[_ Q]]; congruence. }
      assert (RS : rest = map MSchedule (scheduled rest)) by (apply no_sets_map, SR0). rewrite SCH in RS, P6.
      assert (EX : exists L2 us, (all_sources [(s, i)] = [] /\ L2 = [] /\ us = [] \/ exists q, all_sources [(s, i)] = [q] /\ write_request Plain q = map ESet L2 ++ map EUnit us /\ L2 = if several q then [DisableSolitary] else []) /\
                     us = flat_map units_of (all_sources [(s, i)])).
      { destruct (all_sources [(s, i)]) as [|q [|q' l]]; [exists [], []; split; [left; repeat split|reflexivity]| |cbn in P6; lia]. inversion SC as [|x y SQ _]; subst.
        destruct (map_eset q SQ) as (L2 & A & B). exists L2, (units_of q). split; [right; exists q; repeat split; assumption|]. cbn [flat_map]. rewrite app_nil_r. reflexivity. }
      destruct EX as (L2 & us & EX & EU). rewrite <- EU.
      assert (EL : Forall early_call L2 /\ ns_regs L2 = [] /\ disables L2 = existsb several (all_sources [(s, i)]) /\ hashes L2 = false).
      { destruct EX as [(-> & -> & _)|(q & -> & _ & ->)]; [repeat split; constructor|]. cbn [existsb]. rewrite orb_false_r. destruct (several q); repeat split; repeat constructor. }
      destruct EL as (EL1 & EL2 & EL3 & EL4). exists (pre ++ L2).
      assert (RQ : requested r [(s, i)] (run (cs ++ pre ++ L2) archive_create)).
      { apply settings_asked; try assumption.
        - apply Forall_app. split; assumption.
        - rewrite ns_regs_app, EL2, app_nil_r. exact REG.
        - rewrite LO, early_app, P2, EL3. unfold as_archive. rewrite SI, PL. reflexivity.
        - rewrite LO, hashes_app, P3, EL4, orb_false_r. unfold with_hash. rewrite SI. reflexivity. }
      split; [exact RQ|]. split.
      { unfold as_archive. rewrite SI, PL. cbn [orb]. intros NS. rewrite EU. destruct EX as [(-> & _ & _)|(q & EQ & _ & _)]; [cbn; lia|]. rewrite EQ in *. cbn [existsb flat_map] in *. rewrite app_nil_r.
        rewrite orb_false_r in NS. unfold several in NS. destruct (units_of q) as [|x [|y l]]; cbn; try lia; discriminate NS. }
      intros t IL. rewrite EV in IL. destruct (interleave_pre _ _ _ _ IL) as (t' & -> & IL'). exists (map EUnit us). split.
      * rewrite map_app, <- app_assoc. f_equal. rewrite RS in IL'. destruct EX as [(EQ & -> & ->)|(q & EQ & WR & _)]; rewrite EQ in IL'; cbn [map] in IL'.
        -- apply interleave_rest in IL'. exact IL'.
        -- apply interleave_one in IL'. rewrite IL'. exact WR.
      * split; [apply op_units_map|]. split; [apply Forall_map, Forall_forall; intros x _; exact I|]. rewrite op_sets_map. constructor.
  - assert (ST : staged ms).
    { apply (handle_staged _ _ _ _ _ HA). unfold ordered in OR. unfold foreign. destruct (c_output_xml r); cbn [andb].
      - exact OR.
      - apply forallb_forall. intros; reflexivity. }
    destruct ST as (pre & rest & -> & E & M). rewrite scheduled_app, scheduled_sets in SCH. cbn [app] in SCH. rewrite sets_of_app, sets_of_map, ns_regs_app, (mild_regs _ M), app_nil_r in REG.
    pose proof (lone_none _ _ LO) as SI. assert (AA : as_archive r ins = true) by (unfold as_archive; rewrite SI; reflexivity). assert (WH : with_hash r ins = true) by (unfold with_hash; rewrite SI; reflexivity).
    exists pre.
    assert (RQ : requested r ins (run (cs ++ pre) archive_create)) by (apply settings_asked; try assumption; rewrite LO; [rewrite AA|rewrite WH]; reflexivity).
    split; [exact RQ|]. split; [rewrite AA; discriminate|]. intros t IL. destruct (interleave_pre _ _ _ _ IL) as (t' & -> & IL'). exists t'. split; [reflexivity|].
    rewrite <- SCH in SC. destruct (interleave_plain _ _ _ IL' SC ltac:(constructor)) as (U & Q & ST). rewrite SCH in U. split; [exact U|]. split; [exact Q|]. apply Forall_forall. intros c C.
    assert (NA : noop (run (cs ++ pre) archive_create) DisableSolitary) by (apply archive_noop; rewrite (d_options _ _ _ RQ); exact AA).
    assert (NH : noop (run (cs ++ pre) archive_create) EnableHash) by (apply hash_noop; rewrite (d_options _ _ _ RQ); exact WH).
    destruct (ST c C) as [[]|[I1|[-> _]]]; [|exact NA].
    assert (MC : mild c).
    { unfold sets_of in I1. apply in_flat_map in I1. destruct I1 as ([c'|q] & J1 & J2); [|destruct J2]. destruct J2 as [<-|[]]. rewrite Forall_forall in M. exact (M _ J1). }
    destruct MC as [->| ->]; assumption.
Qed.

(** ** The run *)
Lemma settings_map : forall cs, settings (map Setting cs) = cs.
Proof. induction cs as [|c cs IH]; [reflexivity|]. cbn. rewrite IH. reflexivity. Qed.
Lemma run_units : forall cs t a xs (closed : bool), ready a (map (fun x => x) (op_units t)) t -> a = run cs archive_create -> readings a (op_units t) xs ->
  a_pi a = None -> a_macros a = [] -> (is_archive a = false -> (length xs <= 1)%nat) ->
  exists rs m1, arun new_am (OpenOutput true true :: map Setting cs ++ calls_of a t ++ (if closed then [Close] else [])) = Ok (rs, m1) /\
    am_files (if closed then m1 else archive_free m1) = [document closed a xs].
Proof.
  intros cs t a xs closed (_ & Q & NO) EA R PI MA LEN. destruct (calls_writing a t xs Q NO R) as (L & t' & -> & NL & WR). pose proof (readings_good _ _ _ R) as G.
  rewrite calls_sets, (noop_run L a NL).
  assert (QS : forall l, Forall quiet (map Setting l)) by (intros l; apply Forall_map, Forall_forall; intros c _; exact I).
  destruct (opens [] (map Setting (cs ++ L)) false I (QS _) (fun _ => Forall_nil _)) as (rs & m & id & E & O). cbn [app] in E.
  assert (NI : Forall no_input (OpenOutput true true :: map Setting (cs ++ L))) by (constructor; [exact I|apply Forall_map, Forall_forall; intros c _; exact I]).
  destruct (settings_ok _ _ _ _ E NI) as [SA AT]. cbn [settings] in SA. rewrite settings_map in SA. change (am_a new_am) with archive_create in SA. rewrite run_app in SA. rewrite <- EA in SA. rewrite (noop_run L a NL) in SA.
  assert (FM : am_files m = []).
  { cbn [arun astep negb] in E. cbn [obind fst snd] in E. destruct (arun _ (map Setting (cs ++ L))) as [[q m2]|] eqn:E2; [|discriminate E]. cbn [obind fst snd] in E. injection E as _ <-.
    assert (X : forall l x q y, arun x (map Setting l) = Ok (q, y) -> am_files y = am_files x).
    { induction l as [|c l IH]; intros x q' y H; [injection H as _ <-; reflexivity|]. cbn [map arun astep] in H. destruct (step (am_a x) c) as [st a']. cbn [obind fst snd] in H.
      destruct (arun _ (map Setting l)) as [[q2 y2]|] eqn:E3; [|discriminate H]. cbn [obind fst snd] in H. injection H as _ <-. rewrite (IH _ _ _ E3). reflexivity. }
    rewrite (X _ _ _ _ E2). reflexivity. }
  assert (SPLIT : forall tail, arun new_am (OpenOutput true true :: map Setting cs ++ (map Setting L ++ calls_of a t') ++ tail) = obind (arun m (calls_of a t' ++ tail)) (fun p => Ok (rs ++ fst p, snd p))).
  { intros tail. rewrite <- app_assoc, app_assoc, <- map_app. change (OpenOutput true true :: map Setting (cs ++ L) ++ calls_of a t' ++ tail) with ((OpenOutput true true :: map Setting (cs ++ L)) ++ calls_of a t' ++ tail).
    rewrite arun_app, E. cbn [obind fst snd]. reflexivity. }
  assert (SA' : am_a m = a) by exact SA. rewrite SPLIT. clear SA EA SPLIT E NO NL. subst a. unfold document. destruct closed.
  - destruct (is_archive (am_a m)) eqn:A.
    + destruct (archive_document m _ _ id false O WR A G) as (qs & m' & E2 & _ & _ & D). rewrite E2. cbn [obind fst snd]. eexists _, m'. split; [reflexivity|].
      destruct D as [D _]. rewrite D, FM, AT. reflexivity.
    + destruct (solitary_document m _ _ id false O WR A G) as (qs & m' & E2 & _ & _ & D). rewrite E2. cbn [obind fst snd]. eexists _, m'. split; [reflexivity|].
      destruct D as [D _]. rewrite D, FM, PI. cbn [app]. f_equal. specialize (LEN eq_refl). destruct xs as [|x [|y xs]]; [|unfold solitary_doc|cbn in LEN; lia].
      * unfold instruction. rewrite PI. cbn [solitary_all app]. rewrite app_nil_r. reflexivity.
      * cbn [solitary_all flat_map]. rewrite app_nil_r. reflexivity.
  - rewrite app_nil_r. destruct (is_archive (am_a m)) eqn:A.
    + destruct (freed_archive m _ _ id O WR A G PI MA AT) as (qs & m' & E2 & D). rewrite E2. cbn [obind fst snd]. eexists _, m'. split; [reflexivity|]. rewrite D, FM. reflexivity.
    + destruct (freed_solitary m _ _ id O WR A G (LEN eq_refl)) as (qs & m' & E2 & D). rewrite E2. cbn [obind fst snd]. eexists _, m'. split; [reflexivity|]. rewrite D, FM. reflexivity.
Qed.
Lemma readings_length : forall a us xs, readings a us xs -> length xs = length us.
Proof. intros a us xs R. induction R; cbn; [reflexivity|]. f_equal. assumption. Qed.
Lemma outputs_document : forall v r ins, c_mode r = Plain -> fits v ins -> ordered r ins -> Forall (fun q => scalar q = false) (all_sources ins) -> (exists t, starts r ins t) ->
  exists a, requested r ins a /\ forall t xs, starts r ins t -> readings a (flat_map units_of (all_sources ins)) xs ->
    (exists m, outputs r ins t m) /\ forall m, outputs r ins t m -> am_files m = [document (ends_well ins) a xs].
Proof.
  intros v r ins MO FI OR SC (t0 & cs & ms & w & fl & SE & HA & _). destruct (staged_run v r ins cs ms w fl MO SE HA FI OR SC) as (L & RQ & LEN & TR).
  exists (run (cs ++ L) archive_create). split; [exact RQ|]. intros t xs (cs' & ms' & w' & fl' & SE' & HA' & IL) R.
  rewrite SE in SE'. injection SE' as <-. rewrite HA in HA'. injection HA' as <- <- <-. destruct (TR t IL) as (t' & -> & RD). pose proof RD as (U & _ & _).
  pose proof (eq_sym (closes_well _ _ _ _ _ HA)) as CL. set (closed := ends_well ins) in *. set (a := run (cs ++ L) archive_create) in *. rewrite <- U in R.
  assert (RD' : ready a (map (fun x => x) (op_units t')) t') by (rewrite map_id, U; exact RD).
  assert (LEN' : is_archive a = false -> (length xs <= 1)%nat).
  { intros A. rewrite (readings_length _ _ _ R), U. apply LEN. pose proof (d_options _ _ _ RQ 14) as B. unfold option_bit in B. cbn in B. rewrite <- B. exact A. }
  destruct (d_rest _ _ _ RQ) as (PI & MA & _). destruct (run_units (cs ++ L) t' a xs closed RD' eq_refl R PI MA LEN') as (rs & m1 & E & D).
  assert (EQ : OpenOutput true true :: map Setting cs ++ calls_of (run cs archive_create) (map ESet L ++ t') ++ (if closed then [Close] else []) =
               OpenOutput true true :: map Setting (cs ++ L) ++ calls_of a t' ++ (if closed then [Close] else [])).
  { f_equal. rewrite calls_sets, map_app, <- !app_assoc. unfold a. rewrite run_app. reflexivity. }
  split.
  - exists (if closed then m1 else archive_free m1). exists cs, ms, w, false, fl, rs, m1. split; [exact SE|]. split; [exact HA|]. split; [exact IL|]. cbv zeta. rewrite <- CL, EQ. split; [exact E|reflexivity].
  - intros m (cs' & ms' & w' & rf & fl' & rs' & m1' & SE' & HA' & IL' & E' & ->). rewrite SE in SE'. injection SE' as <-. rewrite HA in HA'. injection HA' as <- <- <- <-.
    cbv zeta in E'. rewrite <- CL, EQ, E in E'. injection E' as <- <-. rewrite <- CL. exact D.
Qed.
Lemma outputs_same : forall v r ins t1 t2 m1 m2, c_mode r = Plain -> fits v ins -> ordered r ins -> Forall (fun q => scalar q = false) (all_sources ins) -> starts r ins t1 -> starts r ins t2 ->
  (forall a, requested r ins a -> exists xs, readings a (flat_map units_of (all_sources ins)) xs) -> outputs r ins t1 m1 -> outputs r ins t2 m2 -> am_files m1 = am_files m2.
Proof.
  intros v r ins t1 t2 m1 m2 MO FI OR SC S1 S2 R O1 O2. destruct (outputs_document v r ins MO FI OR SC (ex_intro _ _ S1)) as (a & RQ & D). destruct (R a RQ) as (xs & X).
  rewrite (proj2 (D t1 xs S1 X) m1 O1), (proj2 (D t2 xs S2 X) m2 O2). reflexivity.
Qed.
Lemma solitary_single : forall v r ins t, c_mode r = Plain -> fits v ins -> ordered r ins -> Forall (fun q => scalar q = false) (all_sources ins) -> starts r ins t ->
  as_archive r ins = false -> (length (flat_map units_of (all_sources ins)) <= 1)%nat.
Proof.
  intros v r ins t MO FI OR SC (cs & ms & w & fl & SE & HA & _) A. destruct (staged_run v r ins cs ms w fl MO SE HA FI OR SC) as (L & _ & X & _). apply X, A.
Qed.
