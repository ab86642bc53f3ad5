(** C61: the calls of a parse and the tokens it issues. *)
From Verif Require Import Base Parser_Model Parser_Spec Parser_Proofs Parser_Proofs2 Parser_Proofs3 Parser_View Parser_View2 Parser_View3 Parser_Guess.
From Verif Require Import Places_Model Places_Spec Places_Proofs.

(** Tokens issued, without and with those still skipped. *)
Definition front s := if inskip s then popped s ++ tb s ++ skiptb s ++ pretb s else popped s ++ tb s.
Lemma everything_split s : tidy s -> everything s = front s ++ skip s.
Proof.
  intros T. unfold everything, buffered, front, skip. destruct (inskip s) eqn:E.
  - rewrite <- !app_assoc. reflexivity.
  - destruct (T E) as [-> ->]. rewrite !app_nil_r, <- app_assoc. reflexivity.
Qed.

(** A step that prim knows. *)
Lemma silent_prim o s s' : silent s s' -> prim o s s' \/ exists t r, tb s = t :: r /\ s' = after_pop t r s.
Proof.
  intros H. destruct H;
    [left; eapply p_pop; eassumption|left; apply p_new|left; eapply p_set; eassumption|left; eapply p_clear; eassumption
    |left; eapply p_add; eassumption|left; eapply p_dup; eassumption|left; eapply p_insert; eassumption
    |left; eapply p_dupdown; eassumption|left; apply p_pause|left; apply p_nop; assumption|left; eapply p_type; eassumption
    |right; exists t, r; split; [assumption|reflexivity]].
Qed.

Lemma calm_silent s s' : silent s s' -> calm s s'.
Proof.
  intros H. destruct (silent_prim (POpts false false) _ _ H) as [P|[t [r [B ->]]]]; [eapply calm_prim; exact P|].
  constructor; try reflexivity. apply incl_refl.
Qed.
Lemma keeps_silent src s s' : silent s s' -> keeps src s s'.
Proof.
  intros H. destruct (silent_prim (POpts false false) _ _ H) as [P|[t [r [B ->]]]]; [eapply keeps_prim; exact P|].
  intros [T X E]. rewrite (everything_pop t r s B). split; [|reflexivity].
  constructor; [exact T| |]; rewrite (everything_pop t r s B); assumption.
Qed.

Lemma emits_prim_end o t r n e k s : modes s = t :: r -> opened t = (n, e) :: k -> prim o s (endElement s).
Proof. intros M O. apply p_end. unfold top_open. rewrite M, O. cbn. lia. Qed.
Lemma emits_prim_take o s : (at_white s = true -> 0 < guessing s) -> prim o s (take s).
Proof. intros H. apply p_take. intros W. left. apply H, W. Qed.

Record along (s s' : ps) : Prop := { al_g : guessing s' = guessing s; al_log : incl (log s) (log s') }.
Lemma along_calm s s' : calm s s' -> along s s'.
Proof. intros [A B C]. constructor; assumption. Qed.
Lemma along_emits o s l s' : emits o s l s' -> along s s'.
Proof.
  induction 1 as [s|s1 l1 s2 l2 s3 _ [A B] _ [A' B']|e s s' H|e s s' H|t r n e k s M O|e s|s|s s' H|s H|t r s s' I K H|s
                 |l s s' _ [A B]|g l s s' G _ [A B]].
  - constructor; [reflexivity|apply incl_refl].
  - constructor; [congruence|eapply incl_tran; eassumption].
  - apply along_calm. eapply calm_prim. exact (p_start o e s s' H).
  - apply along_calm. eapply calm_prim. exact (p_start_ns o e s s' H).
  - apply along_calm, calm_end.
  - apply along_calm. eapply calm_prim, (p_empty o).
  - apply along_calm, calm_flush.
  - apply along_calm, calm_silent, H.
  - apply along_calm, calm_take.
  - apply along_calm. eapply calm_skip_one, H.
  - apply along_calm, calm_complete.
  - cbn in *. constructor; cbn; [rewrite A; reflexivity|exact B].
  - cbn in *. constructor.
    + unfold leave_region, note_if. destruct (existsb _ _), (_ || _); exact A.
    + eapply incl_tran; [exact B|apply log_leave].
Qed.
Lemma incl_none {A} (l m : list A) : incl l m -> m = [] -> l = [].
Proof. intros I ->. destruct l; [reflexivity|]. destruct (I a). left. reflexivity. Qed.

Lemma keeps_emits src o s l s' : emits o s l s' -> keeps src s s'.
Proof.
  induction 1 as [s|s1 l1 s2 l2 s3 R1 IH1 R2 IH2|e s s' H|e s s' H|t r n e k s M O|e s|s|s s' H|s H|t r s s' I0 K H|s
                 |l s s' R IH|g l s s' G R IH].
  - intros I. split; [exact I|reflexivity].
  - intros I. destruct (IH1 I) as [I2 X]. destruct (IH2 I2) as [I3 Y]. split; [exact I3|].
    intros H. pose proof (al_g _ _ (along_emits _ _ _ _ R1)) as D. rewrite Y by lia. apply X, H.
  - eapply keeps_prim, (p_start o e), H.
  - eapply keeps_prim, (p_start_ns o e), H.
  - eapply keeps_prim, (emits_prim_end o); eassumption.
  - eapply keeps_prim, (p_empty o).
  - eapply keeps_prim, (p_flush o).
  - apply keeps_silent, H.
  - eapply keeps_prim, (emits_prim_take o), H.
  - eapply keeps_prim, (p_skip o); eassumption.
  - eapply keeps_prim, (p_complete o).
  - intros I. destruct I as [T [r [X Rr]] E].
    assert (IM : Inv src (mark s)).
    { constructor; [exact T| |exact E]. exists r. split; [exact X|]. cbn. discriminate. }
    destruct (IH IM) as [[T' [r' [X' _]] E'] Q].
    assert (Q' : text (everything s') = text (everything s)) by (apply Q; cbn; discriminate).
    split; [|intros _; exact Q'].
    constructor; [exact T'| |exact E'].
    exists r. change (everything (rewind s s')) with (everything s'). rewrite Q'. split; [exact X|].
    cbn. intros H. apply Rr. pose proof (al_g _ _ (along_emits _ _ _ _ R)) as D. cbn in D. lia.
  - intros I. destruct I as [T [r [X Rr]] E].
    assert (N : inskip s = false) by (unfold at_region in G; destruct (inskip s); [discriminate G|reflexivity]).
    destruct (T N) as [P1 P2].
    assert (IM : Inv src (enter s)).
    { constructor; [discriminate| |exact E]. exists r. split; assumption. }
    destruct (IH IM) as [[T' [r' [X' R']] E'] Q].
    pose proof (everything_leave s s' T') as L.
    assert (B : guessing (leave_region s s') = guessing s' /\
                input (leave_region s s') = input s' /\
                pretb (leave_region s s') = [] /\ skippretb (leave_region s s') = []).
    { unfold leave_region, note_if. destruct (existsb _ _), (_ || _); repeat split; reflexivity. }
    destruct B as [B1 [B2 [B3 B4]]].
    split; [|intros H; rewrite L; apply Q, H].
    constructor.
    + intros _. split; assumption.
    + exists r'. rewrite L, B1, B2. split; assumption.
    + rewrite L. exact E'.
Qed.

(** Every parse without a fault makes some list of calls. *)
Lemma reach_emits o s s' : reach o s s' -> log s' = [] -> exists l, emits o s l s'.
Proof.
  induction 1 as [s|s1 s2 s3 R1 IH1 R2 IH2|s s' P|s s' R IH|s s' R IH|g s s' G R IH|s s' G R IH]; intros L.
  - exists []. constructor.
  - destruct (IH2 L) as [l2 E2].
    destruct (IH1 (incl_none _ _ (drift_log _ _ (drift_reach _ _ _ R2)) L)) as [l1 E1].
    exists (l1 ++ l2). eapply m_seq; eassumption.
  - destruct P; try (exists []; apply m_silent; econstructor; eassumption).
    + eexists. eapply m_start, H.
    + eexists. eapply m_start_ns, H.
    + unfold top_open in H. destruct (modes s) as [|t r] eqn:M; [lia|]. destruct (opened t) as [|[n e] k] eqn:O; [cbn in H; lia|].
      eexists. eapply m_end; eassumption.
    + eexists. apply m_empty.
    + eexists. apply m_flush.
    + eexists. apply m_take. intros W. destruct (H W) as [G|G]; [exact G|].
      pose proof (calm_log _ _ (calm_take s)) as C. apply C in G. rewrite L in G. contradiction.
    + eexists. eapply m_skip; eassumption.
    + eexists. apply m_complete.
  - destruct (IH L) as [l E]. eexists. apply m_guess, E.
  - discriminate L.
  - destruct (IH (incl_none _ _ (log_leave s s') L)) as [l E]. eexists. eapply m_region; eassumption.
  - discriminate L.
Qed.
Lemma travels_emits o s s' : travels o s s' -> log s' = [] -> exists l, emits o s l s'.
Proof.
  induction 1 as [s|s1 s2 s3 V IH R|s1 s2 t r V IH B]; intros L.
  - exists []. constructor.
  - destruct (reach_emits _ _ _ R L) as [l2 E2].
    destruct (IH (incl_none _ _ (drift_log _ _ (drift_reach _ _ _ R)) L)) as [l1 E1].
    exists (l1 ++ l2). eapply m_seq; eassumption.
  - destruct (IH L) as [l1 E1]. exists (l1 ++ []). eapply m_seq; [exact E1|]. apply m_silent. eapply q_take_out, B.
Qed.
Lemma parse_emits o rs src cs l e s : pull o rs cs (construct src) = (l, e, s) -> log s = [] ->
  exists c, emits o (construct src) c s.
Proof.
  intros P L. destruct (construct_tb src) as [t [r [B [Q ->]]]].
  destruct (pull_front o rs cs _ _ _ _ _ _ (construct_top src) B P) as [V _].
  eapply travels_emits; eassumption.
Qed.
