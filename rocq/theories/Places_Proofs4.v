(** C61: look-aheads. *)
From Verif Require Import Base Parser_Model Parser_Spec Parser_Proofs Parser_Proofs2 Parser_Proofs3 Parser_View Parser_View2 Parser_View3 Parser_Guess.
From Verif Require Import Places_Model Places_Spec Places_Proofs Places_Proofs2 Places_Proofs3.

Lemma play_app w l1 : forall l2 d, play w (l1 ++ l2) d = obind (play w l1 d) (play w l2).
Proof.
  induction l1 as [|c r IH]; intros l2 d; [reflexivity|]. cbn. change (all_calls (place w)) with (play w).
  destruct (place w c d); [cbn; apply IH|reflexivity].
Qed.
Lemma looks_app l1 : forall l2 n, looks (l1 ++ l2) n = match looks l1 n with Some m => looks l2 m | None => None end.
Proof. induction l1 as [|c r IH]; intros l2 n; [reflexivity|]. cbn. destruct (look c n); [apply IH|reflexivity]. Qed.
Lemma look_guess l n : look (Cguess l) n = looks l n.
Proof. revert n. induction l as [|c r IH]; intros n; [reflexivity|]. cbn in *. destruct (look c n); [apply IH|reflexivity]. Qed.
Lemma look_region l n : look (Cregion l) n = looks l n.
Proof. revert n. induction l as [|c r IH]; intros n; [reflexivity|]. cbn in *. destruct (look c n); [apply IH|reflexivity]. Qed.

Record unmoved (d d' : places) : Prop :=
  { um_s : p_started d' = p_started d; um_e : p_ended d' = p_ended d; um_n : p_serial d' = p_serial d; um_g : p_guess d' = p_guess d }.
Lemma unmoved_refl d : unmoved d d.
Proof. constructor; reflexivity. Qed.
Lemma unmoved_trans a b c : unmoved a b -> unmoved b c -> unmoved a c.
Proof. intros [A B C D] [A' B' C' D']. constructor; congruence. Qed.

Record hushed (s s' : ps) : Prop :=
  { hu_o : open_ids s' = open_ids s; hu_n : serial s' = serial s; hu_t : tidy s'; hu_a : map untyped (everything s') = map untyped (everything s) }.
Lemma hushed_trans a b c : hushed a b -> hushed b c -> hushed a c.
Proof. intros [A B C D] [A' B' C' D']. constructor; try congruence. exact C'. Qed.
Lemma hushed_prim o s s' : prim o s s' -> guessing s <> 0 -> tidy s -> open_ids s' = open_ids s -> hushed s s'.
Proof. intros P G T O. destruct (so_prim _ _ _ P G) as [A B C]. constructor; [exact O|exact B|apply A, T|apply C, T]. Qed.
Lemma hushed_silent s s' : silent s s' -> guessing s <> 0 -> tidy s -> hushed s s'.
Proof.
  intros H G T. destruct (silent_prim (POpts false false) _ _ H) as [P|[t [r [B ->]]]].
  - eapply hushed_prim; try eassumption. apply (st_o _ _ (silent_still _ _ H)).
  - constructor; try reflexivity; [exact T|]. rewrite (everything_pop t r s B). reflexivity.
Qed.

Definition text_in (t : ltok) (d : places) := next_at (Some t) (issue d).
Lemma unmoved_text t d : p_guess d <> 0 -> unmoved d (text_in t d).
Proof. intros G. constructor; try reflexivity. cbn. destruct (p_guess d); [contradiction|reflexivity]. Qed.
Lemma unmoved_begin e f p d : p_guess d <> 0 -> unmoved d (begin_at e f p d) /\ p_ends (begin_at e f p d) = None :: p_ends d.
Proof.
  intros G. unfold begin_at. destruct (p_guess d) eqn:E; [contradiction|]. cbn. split; [|reflexivity].
  constructor; try reflexivity. cbn. rewrite E. reflexivity.
Qed.
Lemma unmoved_finish w e d r : p_guess d <> 0 -> p_ends d = None :: r ->
  exists d', finish_skip w e d = Ok d' /\ unmoved d d' /\ p_ends d' = r.
Proof.
  intros G E. unfold finish_skip, finish_at. cbn [p_ends set_slast]. rewrite E. eexists. split; [reflexivity|]. split; [|reflexivity].
  constructor; try reflexivity. cbn. destruct (p_guess d); [contradiction|reflexivity].
Qed.

Lemma guess_skip w t r s s' n m c0 d rest : input s = t :: r -> guessing s <> 0 -> skip_one t s = Ret s' -> log s' = [] ->
  look (Cskip t) n = Some m -> comments s = repeat None n ++ c0 -> p_guess d <> 0 -> p_ends d = comments s ++ rest ->
  open_ids s' = open_ids s /\ exists d', place w (Cskip t) d = Ok d' /\ comments s' = repeat None m ++ c0 /\ p_ends d' = comments s' ++ rest /\ unmoved d d'.
Proof.
  intros I G H L K C PG E. unfold skip_one in H. cbn in K. cbn [place]. unfold skip_token.
  assert (PS : forall ty k x o u, guessing u = guessing s -> pushSkipToken ty k x o u = u).
  { intros ty k x o u U. apply pushSkip_guess. rewrite U. exact G. }
  destruct (l_type t) as [z| | | |c|c| | | |z] eqn:T; cbv zeta in H.
  1,2,3,7,8,9,10: rewrite PS in H by reflexivity; injection H as <-; injection K as <-;
    split; [reflexivity|]; eexists; split; [reflexivity|]; split; [exact C|]; split; [exact E|apply (unmoved_text t d PG)].
  - (* whole *)
    rewrite (PS _ _ _ _ s eq_refl), (PS _ _ _ _ s eq_refl), (PS _ _ _ _ (drop1 s) eq_refl) in H. injection H as <-. injection K as <-. split; [reflexivity|].
    destruct (unmoved_begin (Ecomment Cblock) true (w (p_at d)) d PG) as [U1 U2].
    set (d1 := begin_at _ _ _ _) in *. clearbody d1.
    assert (PG1 : p_guess d1 <> 0) by (rewrite (um_g _ _ U1); exact PG).
    destruct (unmoved_finish w (Ecomment Cblock) (text_in t d1) (p_ends d)) as [d2 [F [U3 U4]]];
      [exact PG1|exact U2|].
    exists d2. split; [exact F|]. split; [exact C|]. split; [rewrite U4; exact E|].
    eapply unmoved_trans; [exact U1|]. eapply unmoved_trans; [apply unmoved_text, PG1|exact U3].
  - (* open *)
    rewrite (PS _ _ _ _ s eq_refl), (PS _ _ _ _ s eq_refl) in H. injection H as <-. injection K as <-. split; [reflexivity|].
    destruct (unmoved_begin (Ecomment c) true (w (p_at d)) d PG) as [U1 U2].
    set (d1 := begin_at _ _ _ _) in *. clearbody d1.
    assert (PG1 : p_guess d1 <> 0) by (rewrite (um_g _ _ U1); exact PG).
    assert (IS : issuing s = None) by (unfold issuing; destruct (guessing s); [contradiction|reflexivity]).
    eexists. split; [reflexivity|]. cbn. rewrite IS. split; [rewrite C; reflexivity|]. split; [rewrite U2, E; reflexivity|].
    eapply unmoved_trans; [exact U1|apply (unmoved_text t d1 PG1)].
  - (* close *)
    destruct n as [|n]; [discriminate K|]. injection K as <-. cbn in C.
    unfold pop_comment in H. rewrite C in H. cbv zeta in H.
    assert (N1 : forall f u, note_if ((0 =? guessing s) && true) f u = u) by (intros; destruct (guessing s); [contradiction|reflexivity]).
    rewrite N1 in H. rewrite andb_false_r in H. cbn [note_if] in H.
    assert (X : s' = drop1 (set_comments (repeat None n ++ c0) s)).
    { set (u := set_comments (repeat None n ++ c0) s) in *.
      assert (UG : guessing u = guessing s) by reflexivity. assert (UD : guessing (drop1 u) = guessing s) by reflexivity. clearbody u.
      destruct c; try (destruct (ends_line (l_text t))); repeat (first [rewrite (PS _ _ _ _ u UG) in H|rewrite (PS _ _ _ _ (drop1 u) UD) in H]);
        injection H as <-; reflexivity. }
    subst s'. split; [reflexivity|]. cbn [comments drop1 set_input set_comments].
    rewrite C in E. cbn in E.
    assert (Y : exists d', finish_skip w (Ecomment c) (text_in t d) = Ok d' /\ unmoved d d' /\ p_ends d' = (repeat None n ++ c0) ++ rest).
    { destruct (unmoved_finish w (Ecomment c) (text_in t d) ((repeat None n ++ c0) ++ rest) PG E) as [d2 [F [U3 U4]]].
      exists d2. split; [exact F|]. split; [eapply unmoved_trans; [apply unmoved_text, PG|exact U3]|exact U4]. }
    assert (Z : exists d', obind (finish_skip w (Ecomment c) d) (fun d => Ok (text_in t d)) = Ok d' /\ unmoved d d' /\ p_ends d' = (repeat None n ++ c0) ++ rest).
    { destruct (unmoved_finish w (Ecomment c) d ((repeat None n ++ c0) ++ rest) PG E) as [d2 [F [U3 U4]]].
      exists (text_in t d2). rewrite F. split; [reflexivity|].
      split; [eapply unmoved_trans; [exact U3|apply unmoved_text; rewrite (um_g _ _ U3); exact PG]|exact U4]. }
    destruct c; try (destruct (ends_line (l_text t)));
      first [destruct Y as [d' [F [U V]]] | idtac];
      first [exists d'; split; [exact F|]; split; [reflexivity|]; split; [exact V|exact U]
            |clear d' F U V; destruct Z as [d' [F [U V]]]; exists d'; split; [exact F|]; split; [reflexivity|]; split; [exact V|exact U]].
Qed.

Lemma leave_fields s0 s : comments (leave_region s0 s) = comments s /\ open_ids (leave_region s0 s) = open_ids s /\
  serial (leave_region s0 s) = serial s /\ guessing (leave_region s0 s) = guessing s /\ inskip (leave_region s0 s) = false /\
  tidy (leave_region s0 s) /\ input (leave_region s0 s) = input s.
Proof.
  unfold leave_region, note_if. destruct (existsb _ _), (_ || _); repeat split; reflexivity.
Qed.

Lemma guess_play w o s l s' : emits o s l s' -> guessing s <> 0 -> tidy s -> log s' = [] ->
  forall n m c0 d rest, looks l n = Some m -> comments s = repeat None n ++ c0 -> p_guess d <> 0 -> p_ends d = comments s ++ rest ->
  hushed s s' /\ exists d', play w l d = Ok d' /\ comments s' = repeat None m ++ c0 /\ p_ends d' = comments s' ++ rest /\ unmoved d d'.
Proof.
  induction 1 as [s|s1 l1 s2 l2 s3 R1 IH1 R2 IH2|e s s' H|e s s' H|t r k e q s M O|e s|s|s s' H|s H|t r s s' I0 K H|s
                 |l s s' R IH|g l s s' G R IH]; intros GG T L n m c0 d rest LK C PG E.
  - injection LK as <-. split; [constructor; try reflexivity; exact T|]. exists d. repeat split; assumption.
  - rewrite looks_app in LK. destruct (looks l1 n) as [k|] eqn:LK1; [|discriminate].
    pose proof (along_emits _ _ _ _ R1) as [G1 _]. pose proof (along_emits _ _ _ _ R2) as [_ L2].
    destruct (IH1 GG T (incl_none _ _ L2 L) n k c0 d rest LK1 C PG E) as [H1 [d1 [P1 [C1 [E1 U1]]]]].
    assert (PG1 : p_guess d1 <> 0) by (rewrite (um_g _ _ U1); exact PG).
    destruct (IH2 ltac:(congruence) (hu_t _ _ H1) L k m c0 d1 rest LK C1 PG1 E1) as [H2 [d2 [P2 [C2 [E2 U2]]]]].
    split; [eapply hushed_trans; eassumption|]. exists d2. rewrite play_app, P1. cbn [obind].
    split; [exact P2|]. split; [exact C2|]. split; [exact E2|]. eapply unmoved_trans; eassumption.
  - discriminate LK.
  - discriminate LK.
  - destruct (issues_empty t); discriminate LK.
  - cbn in LK. injection LK as <-. split.
    + eapply hushed_prim; [apply (p_empty o)|exact GG|exact T|]. unfold emptyElement. rewrite pushTokenFlush_guess by exact GG. reflexivity.
    + unfold emptyElement. rewrite pushTokenFlush_guess by exact GG. eexists. split; [reflexivity|]. split; [exact C|]. split; [exact E|].
      constructor; try reflexivity. cbn. destruct (p_guess d); [contradiction|reflexivity].
  - cbn in LK. injection LK as <-. split.
    + eapply hushed_prim; [apply (p_flush o)|exact GG|exact T|]. unfold flushSkip, set_skip, set_output. destruct (inskip s) eqn:Z; cbn; rewrite ?Z; reflexivity.
    + eexists. split; [reflexivity|].
      assert (CF : comments (flushSkip s) = comments s) by (unfold flushSkip, set_skip, set_output; destruct (inskip s) eqn:Z; cbn; rewrite ?Z; reflexivity).
      rewrite CF. split; [exact C|]. split; [exact E|]. constructor; reflexivity.
  - injection LK as <-. split; [apply hushed_silent; assumption|]. exists d. split; [reflexivity|].
    rewrite (st_c _ _ (silent_still _ _ H)). split; [exact C|]. split; [exact E|]. apply unmoved_refl.
  - cbn in LK. injection LK as <-.
    assert (X : comments (take s) = comments s /\ open_ids (take s) = open_ids s).
    { unfold take. destruct (input s) as [|t r].
      - destruct (guessing s) as [|gg] eqn:Q; [contradiction|]. cbn [Nat.eqb andb note_if]. rewrite pushTokenFlush_guess by (rewrite Q; discriminate). split; reflexivity.
      - destruct (is_skip_tok _ _); [rewrite pushSkip_guess by exact GG|rewrite pushTokenFlush_guess by exact GG]; split; reflexivity. }
    destruct X as [X1 X2]. split; [eapply hushed_prim; [apply (emits_prim_take o), H|exact GG|exact T|exact X2]|].
    eexists. split; [reflexivity|]. rewrite X1. split; [exact C|]. split; [exact E|].
    constructor; try reflexivity. cbn. destruct (p_guess d); [contradiction|reflexivity].
  - cbn [looks] in LK. destruct (look (Cskip t) n) as [k|] eqn:LK1; [|discriminate]. injection LK as <-.
    destruct (guess_skip w t r s s' n k c0 d rest I0 GG H L LK1 C PG E) as [O1 [d' [P1 [C1 [E1 U1]]]]].
    split; [eapply hushed_prim; [eapply (p_skip o); eassumption|exact GG|exact T|exact O1]|].
    exists d'. unfold play, all_calls. rewrite P1. cbn [obind]. repeat split; try assumption; apply U1.
  - destruct (comments s) as [|x xs] eqn:CS; [|discriminate LK]. injection LK as <-.
    assert (X : completeSkip s = s) by (unfold completeSkip, pop_comment; rewrite CS; reflexivity).
    rewrite X, CS. split; [constructor; try reflexivity; exact T|]. exists d. split; [reflexivity|]. split; [exact C|]. split; [exact E|apply unmoved_refl].
  - cbn [looks] in LK. rewrite look_guess in LK. destruct (looks l n) as [k|] eqn:LK1; [|discriminate]. injection LK as <-.
    destruct (IH ltac:(cbn; discriminate) T L n k c0 (guess_in d) rest LK1 C ltac:(cbn; discriminate) E) as [H1 [d1 [P1 [C1 [E1 U1]]]]].
    split; [destruct H1 as [A1 A2 A3 A4]; constructor; assumption|].
    exists (guess_out d d1). unfold play. cbn [all_calls place]. unfold play in P1. rewrite P1. cbn [obind].
    split; [reflexivity|]. split; [exact C1|]. split; [exact E1|]. destruct U1 as [V1 V2 V3 V4]. cbn in V1, V2, V3, V4.
    constructor; cbn; try assumption. rewrite V4. reflexivity.
  - cbn [looks] in LK. rewrite look_region in LK. destruct (looks l n) as [k|] eqn:LK1; [|discriminate]. injection LK as <-.
    assert (NS : inskip s = false) by (unfold at_region in G; destruct (inskip s); [discriminate G|reflexivity]).
    destruct (leave_fields s s') as [F1 [F2 [F3 [F4 [F5 [F6 F7]]]]]].
    destruct (IH GG ltac:(discriminate) (incl_none _ _ (log_leave s s') L) n k c0 (loosen d) rest LK1 C PG E) as [H1 [d1 [P1 [C1 [E1 U1]]]]].
    destruct H1 as [A1 A2 A3 A4]. split.
    + constructor; [rewrite F2; exact A1|rewrite F3; exact A2|exact F6|rewrite (everything_leave s s' A3); exact A4].
    + exists (loosen d1). unfold play. cbn [all_calls place]. unfold play in P1. rewrite P1. cbn [obind].
      split; [reflexivity|]. rewrite F1. split; [exact C1|]. split; [exact E1|]. destruct U1 as [V1 V2 V3 V4]. constructor; assumption.
Qed.
