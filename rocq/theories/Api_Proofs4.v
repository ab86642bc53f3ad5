(** Proofs for C33, and witnesses for the other settings properties. *)
From Verif Require Import Base Text_Model Text_Spec Text_Proofs3 Api_Model Api_Spec Api_Proofs Api_Proofs2 Api_Proofs3.
Local Open Scope N_scope.

Definition wf (w : world) : Prop := forall h, (w_next w <= h)%nat -> w_archives w h = None /\ w_units w h = None.
Lemma wf_step : forall w c, wf w -> wf (wstep w c).
Proof.
  intros w c W. destruct c as [|h c|h c|h|h|h|h n|h n]; cbn [wstep].
  - intros k K. cbn in *. unfold put. destruct (Nat.eqb_spec k (w_next w)); [lia|]. apply W. lia.
  - destruct (w_archives w h) as [o|] eqn:E; [|exact W]. intros k K. cbn in *. unfold put.
    destruct (Nat.eqb_spec k h) as [->|]; [|apply W, K]. destruct (W h K). congruence.
  - destruct (w_units w h) as [o|] eqn:E; [|exact W]. intros k K. cbn in *. unfold put.
    destruct (Nat.eqb_spec k h) as [->|]; [|apply W, K]. destruct (W h K). congruence.
  - destruct (w_archives w h) as [o|] eqn:E; [|exact W]. intros k K. cbn in *. unfold put.
    destruct (Nat.eqb_spec k (w_next w)); [lia|]. apply W. lia.
  - destruct (w_units w h) as [o|] eqn:E; [|exact W]. intros k K. cbn in *. unfold put.
    destruct (Nat.eqb_spec k (w_next w)); [lia|]. apply W. lia.
  - destruct (w_archives w h) as [o|] eqn:E; [|exact W]. intros k K. cbn in *. unfold put.
    destruct (Nat.eqb_spec k (w_next w)); [lia|]. apply W. lia.
  - destruct (w_archives w h) as [o|] eqn:E; [|exact W]. intros k K. cbn in *. unfold put.
    destruct (Nat.eqb_spec k h) as [->|]; [|apply W, K]. destruct (W h K). congruence.
  - destruct (w_units w h) as [o|] eqn:E; [|exact W]. intros k K. cbn in *. unfold put.
    destruct (Nat.eqb_spec k h) as [->|]; [|apply W, K]. destruct (W h K). congruence.
Qed.
Lemma wf_run : forall hs w, wf w -> wf (wrun hs w).
Proof. induction hs as [|c hs IH]; intros w W; [exact W|]. apply IH, wf_step, W. Qed.
Lemma wf_reachable : forall hs, wf (wrun hs empty_world).
Proof. intros. apply wf_run. intros h _. split; reflexivity. Qed.

(** what one call does to one handle in use *)
Lemma archive_step : forall w c h o, wf w -> w_archives w h = Some o ->
  exists o', w_archives (wstep w c) h = Some o' /\
    o_settings o' = match c with WArchive k c => if Nat.eq_dec k h then snd (step (o_settings o) c) else o_settings o | _ => o_settings o end.
Proof.
  intros w c h o W E.
  assert (NX : h <> w_next w). { intros ->. destruct (W (w_next w) (Nat.le_refl _)). congruence. }
  destruct c as [|k c|k c|k|k|k|k n|k n]; cbn [wstep].
  - exists o. cbn. unfold put. destruct (Nat.eqb_spec h (w_next w)); [contradiction|]. auto.
  - destruct (Nat.eq_dec k h) as [->|NE].
    + rewrite E. eexists. cbn. unfold put. rewrite Nat.eqb_refl. split; reflexivity.
    + destruct (w_archives w k); cbn; [|eauto]. exists o. unfold put. destruct (Nat.eqb_spec h k); [congruence|]. auto.
  - destruct (w_units w k); cbn; eauto.
  - destruct (w_archives w k); cbn; [|eauto]. exists o. unfold put. destruct (Nat.eqb_spec h (w_next w)); [contradiction|]. auto.
  - destruct (w_units w k); cbn; eauto.
  - destruct (w_archives w k); cbn; eauto.
  - destruct (Nat.eq_dec k h) as [->|NE].
    + rewrite E. eexists. cbn. unfold put. rewrite Nat.eqb_refl. split; reflexivity.
    + destruct (w_archives w k); cbn; [|eauto]. exists o. unfold put. destruct (Nat.eqb_spec h k); [congruence|]. auto.
  - destruct (w_units w k); cbn; eauto.
Qed.
Lemma archive_run : forall hs w h o, wf w -> w_archives w h = Some o ->
  exists o', w_archives (wrun hs w) h = Some o' /\ o_settings o' = run (calls_on h hs) (o_settings o).
Proof.
  induction hs as [|c hs IH]; intros w h o W E; [exists o; auto|].
  destruct (archive_step w c h o W E) as (o1 & E1 & S1).
  destruct (IH (wstep w c) h o1 (wf_step w c W) E1) as (o2 & E2 & S2).
  exists o2. split; [exact E2|]. rewrite S2. change (calls_on h (c :: hs)) with
    (match c with WArchive k c => if Nat.eq_dec k h then [c] else [] | _ => [] end ++ calls_on h hs).
  rewrite run_app, S1. destruct c as [|k c|k c|k|k|k|k n|k n]; try reflexivity. destruct (Nat.eq_dec k h); reflexivity.
Qed.
Lemma unit_step : forall w c h u, wf w -> w_units w h = Some u ->
  exists u', w_units (wstep w c) h = Some u' /\ uo_archive u' = uo_archive u /\
    uo_settings u' = match c with WUnit k c => if Nat.eq_dec k h then snd (ustep (uo_settings u) c) else uo_settings u | _ => uo_settings u end.
Proof.
  intros w c h o W E.
  assert (NX : h <> w_next w). { intros ->. destruct (W (w_next w) (Nat.le_refl _)). congruence. }
  destruct c as [|k c|k c|k|k|k|k n|k n]; cbn [wstep].
  - cbn; eauto.
  - destruct (w_archives w k); cbn; eauto.
  - destruct (Nat.eq_dec k h) as [->|NE].
    + rewrite E. eexists. cbn. unfold put. rewrite Nat.eqb_refl. repeat split; reflexivity.
    + destruct (w_units w k); cbn; [|eauto]. exists o. unfold put. destruct (Nat.eqb_spec h k); [congruence|]. auto.
  - destruct (w_archives w k); cbn; eauto.
  - destruct (w_units w k); cbn; [|eauto]. exists o. unfold put. destruct (Nat.eqb_spec h (w_next w)); [contradiction|]. auto.
  - destruct (w_archives w k); cbn; [|eauto]. exists o. unfold put. destruct (Nat.eqb_spec h (w_next w)); [contradiction|]. auto.
  - destruct (w_archives w k); cbn; eauto.
  - destruct (Nat.eq_dec k h) as [->|NE].
    + rewrite E. eexists. cbn. unfold put. rewrite Nat.eqb_refl. repeat split; reflexivity.
    + destruct (w_units w k); cbn; [|eauto]. exists o. unfold put. destruct (Nat.eqb_spec h k); [congruence|]. auto.
Qed.
Lemma unit_run : forall hs w h u, wf w -> w_units w h = Some u ->
  exists u', w_units (wrun hs w) h = Some u' /\ uo_archive u' = uo_archive u /\ uo_settings u' = urun (ucalls_on h hs) (uo_settings u).
Proof.
  induction hs as [|c hs IH]; intros w h o W E; [exists o; auto|].
  destruct (unit_step w c h o W E) as (o1 & E1 & A1 & S1).
  destruct (IH (wstep w c) h o1 (wf_step w c W) E1) as (o2 & E2 & A2 & S2).
  exists o2. split; [exact E2|]. split; [congruence|]. rewrite S2. change (ucalls_on h (c :: hs)) with
    (match c with WUnit k c => if Nat.eq_dec k h then [c] else [] | _ => [] end ++ ucalls_on h hs).
  unfold urun. rewrite fold_left_app, S1. destruct c as [|k c|k c|k|k|k|k n|k n]; try reflexivity. destruct (Nat.eq_dec k h); reflexivity.
Qed.

Lemma clone_archive_ok : forall before after h o, let w := wrun before empty_world in w_archives w h = Some o ->
  let h' := w_next w in let w1 := wstep w (WCloneArchive h) in
  (exists o', w_archives w1 h' = Some o' /\ h' <> h /\ closed o' /\ o_settings o' = o_settings o /\
     o_attributes o' = o_attributes o /\ o_transformations o' = o_transformations o) /\
  w_archives w1 h = Some o /\
  (exists x y, w_archives (wrun after w1) h = Some x /\ w_archives (wrun after w1) h' = Some y /\
     o_settings x = run (calls_on h after) (o_settings o) /\ o_settings y = run (calls_on h' after) (o_settings o)).
Proof.
  intros before after h o w E h' w1. assert (W : wf w) by apply wf_reachable.
  assert (NX : h' <> h). { intros Q. destruct (W (w_next w) (Nat.le_refl _)) as (Z & _). fold h' in Z. rewrite Q in Z. congruence. }
  assert (E0 : w_archives w1 h' = Some (archive_clone o)).
  { unfold w1, wstep. rewrite E. cbn. unfold put. fold h'. rewrite Nat.eqb_refl. reflexivity. }
  assert (E1 : w_archives w1 h = Some o).
  { unfold w1, wstep. rewrite E. cbn. unfold put. fold h'. destruct (Nat.eqb_spec h h'); [congruence|exact E]. }
  split; [exists (archive_clone o); repeat split; assumption|]. split; [exact E1|].
  assert (W1 : wf w1) by (apply wf_step, W).
  destruct (archive_run after w1 h o W1 E1) as (x & X1 & X2).
  destruct (archive_run after w1 h' (archive_clone o) W1 E0) as (y & Y1 & Y2).
  exists x, y. auto.
Qed.
Lemma clone_unit_ok : forall before after h u, let w := wrun before empty_world in w_units w h = Some u ->
  let h' := w_next w in let w1 := wstep w (WCloneUnit h) in
  (exists u', w_units w1 h' = Some u' /\ h' <> h /\ unread u' /\ uo_settings u' = uo_settings u /\ uo_archive u' = uo_archive u /\
     uo_revision u' = uo_revision u /\ uo_url u' = uo_url u /\ uo_attributes u' = uo_attributes u /\ uo_namespaces u' = uo_namespaces u) /\
  w_units w1 h = Some u /\
  (exists x y, w_units (wrun after w1) h = Some x /\ w_units (wrun after w1) h' = Some y /\
     uo_settings x = urun (ucalls_on h after) (uo_settings u) /\ uo_settings y = urun (ucalls_on h' after) (uo_settings u)).
Proof.
  intros before after h o w E h' w1. assert (W : wf w) by apply wf_reachable.
  assert (NX : h' <> h). { intros Q. destruct (W (w_next w) (Nat.le_refl _)) as (_ & Z). fold h' in Z. rewrite Q in Z. congruence. }
  assert (E0 : w_units w1 h' = Some (unit_clone o)).
  { unfold w1, wstep. rewrite E. cbn. unfold put. fold h'. rewrite Nat.eqb_refl. reflexivity. }
  assert (E1 : w_units w1 h = Some o).
  { unfold w1, wstep. rewrite E. cbn. unfold put. fold h'. destruct (Nat.eqb_spec h h'); [congruence|exact E]. }
  split. { exists (unit_clone o). repeat split; try assumption. cbn. destruct (uo_settings o); reflexivity. }
  split; [exact E1|]. assert (W1 : wf w1) by (apply wf_step, W).
  destruct (unit_run after w1 h o W1 E1) as (x & X1 & _ & X2).
  destruct (unit_run after w1 h' (unit_clone o) W1 E0) as (y & Y1 & _ & Y2).
  exists x, y. repeat split; try assumption. rewrite Y2. f_equal. cbn. destruct (uo_settings o); reflexivity.
Qed.

(** ** Witnesses *)
Lemma set_options_resets : is_solitary (run [SetOptions 0] archive_create) = true /\ is_solitary archive_create = false /\
  has_hash (run [SetOptions 0] archive_create) = false /\ has_hash archive_create = true.
Proof. repeat split; vm_compute; reflexivity. Qed.
Lemma macro_wrap : macro_token (run [RegisterMacro (Some (txt "M")) (Some (txt "src:macro"))] archive_create) (2 ^ 63) = Ok (Some (txt "M")) /\
  macro_size (run [RegisterMacro (Some (txt "M")) (Some (txt "src:macro"))] archive_create) = 1%nat.
Proof. split; vm_compute; reflexivity. Qed.
Lemma pi_null : forall a d, set_processing_instruction a None d = UB.
Proof. reflexivity. Qed.
Lemma null_call : forall c, call_on None c = (ST_INVALID_ARGUMENT, None).
Proof. reflexivity. Qed.
(** the text after the last dot is taken even when it lies in the directory part *)
Lemma directory_dot : extension_of (txt "a.c/Makefile") (txt "c/Makefile").
Proof. apply extension_ok. reflexivity. Qed.
Lemma unit_unknown_no_fallback : exists u a, uget u ULanguage = Some (txt "Cobol") /\ get_attr a ALanguage = Some (txt "Java") /\
  decide_language u a None = Ok (ST_UNSET_LANGUAGE, 0).
Proof.
  exists (snd (ustep unit_create (USet ULanguage (Some (txt "Cobol"))))), (run [SetAttr ALanguage (Some (txt "Java"))] archive_create).
  repeat split; vm_compute; reflexivity.
Qed.
Lemma unprefixed_equal : is_srcml_namespace (txt "srcML/src") SRC_URI = true /\ txt "srcML/src" <> SRC_URI.
Proof. split; [vm_compute; reflexivity|discriminate]. Qed.
