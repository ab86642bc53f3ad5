(** C38: looking ahead. *)
From Verif Require Import Base Parser_Model Parser_Spec Parser_Proofs Parser_Proofs2 Parser_Proofs3 Parser_View Parser_Modes.

(** Nothing was pushed; tokens may have been retyped. *)
Record same_out (s s' : ps) : Prop :=
  { so_tidy : tidy s -> tidy s';
    so_serial : serial s' = serial s;
    so_all : tidy s -> map untyped (everything s') = map untyped (everything s) }.
Lemma so_refl s : same_out s s.
Proof. constructor; auto. Qed.
Lemma so_trans a b c : same_out a b -> same_out b c -> same_out a c.
Proof.
  intros [A1 A2 A3] [B1 B2 B3]. constructor; [auto|congruence|]. intros T. rewrite B3 by auto. apply A3, T.
Qed.
Lemma so_fields s s' : inskip s' = inskip s -> tb s' = tb s -> skiptb s' = skiptb s -> pretb s' = pretb s ->
  skippretb s' = skippretb s -> popped s' = popped s -> serial s' = serial s -> same_out s s'.
Proof.
  intros A B C D E F G. constructor; [|exact G|].
  - unfold tidy. rewrite A, D, E. auto.
  - unfold everything, buffered. rewrite B, C, D, E, F. auto.
Qed.
Lemma so_note_if b f s : same_out s (note_if b f s).
Proof. destruct b; apply so_fields; reflexivity. Qed.
Lemma so_modes x s : same_out s (set_modes x s).
Proof. apply so_fields; reflexivity. Qed.
Lemma so_flush s : same_out s (flushSkip s).
Proof.
  constructor; [apply tidy_flush|apply flush_serial|]. intros T. rewrite everything_flush by exact T. reflexivity.
Qed.
Lemma so_retype n ty s : same_out s (retype_bufs n ty s).
Proof.
  constructor; [|reflexivity|].
  - unfold tidy, retype_bufs. cbn. intros T I. destruct (T I) as [-> ->]. auto.
  - intros _. unfold everything, buffered, retype_bufs. cbn. rewrite !map_app, !retype_untyped. reflexivity.
Qed.
Lemma so_on_top f s s' : on_top f s = Ret s' -> same_out s s'.
Proof. unfold on_top. destruct (modes s); [discriminate|]. intros E. injection E as <-. apply so_modes. Qed.
Lemma so_pop_comment s n s' : pop_comment s = Some (n, s') -> same_out s s' /\ guessing s' = guessing s.
Proof.
  unfold pop_comment. destruct (comments s) as [|o r]; [discriminate|]. intros E. injection E as _ <-.
  match goal with |- context [note_if ?b ?f (note_if ?c ?g s)] => destruct b, c end; (split; [apply so_fields; reflexivity|reflexivity]).
Qed.
Lemma so_nop s s' : nopStreamStart s = Ret s' -> same_out s s'.
Proof.
  unfold nopStreamStart. destruct (paused s); [|intros E; injection E as <-; apply so_refl].
  destruct (find_tok _ _); [|discriminate]. destruct (rev _) as [|b ?]; [discriminate|].
  destruct (ttype_eq_dec _ _); intros E; injection E as <-; [|apply so_refl].
  eapply so_trans; [apply so_retype|]. eapply so_trans; [apply so_retype|].
  eapply so_trans; [apply so_note_if|]. apply so_fields; reflexivity.
Qed.

Lemma so_end s : guessing s <> 0 -> same_out s (endElement s).
Proof.
  intros G. unfold endElement. eapply so_trans; [|apply so_note_if]. unfold end_element.
  destruct (modes s) as [|t r]; [apply so_refl|]. destruct (opened t) as [|[a e] oo]; [apply so_refl|].
  destruct (N.eqb _ _).
  - rewrite pushToken_guess.
    + eapply so_trans; [|apply so_modes]. eapply so_trans; [apply so_note_if|apply so_note_if].
    + match goal with |- guessing (note_if ?b ?f (note_if ?c ?g s)) <> 0 => destruct b, c; exact G end.
  - assert (G1 : forall b f, guessing (note_if b f s) <> 0) by (intros [] f; exact G).
    rewrite (pushToken_guess (TE e) Kstart) by apply G1. rewrite pushToken_guess by apply G1.
    eapply so_trans; [apply so_note_if|apply so_modes].
Qed.

Lemma so_skip_one t s s' : guessing s <> 0 -> skip_one t s = Ret s' -> same_out s s'.
Proof.
  intros G. unfold skip_one.
  assert (Z : forall ty k x w, pushSkipToken ty k x w s = s) by (intros; apply pushSkip_guess, G).
  assert (D : same_out s (drop1 s)) by (apply so_fields; reflexivity).
  assert (G1 : guessing (drop1 s) <> 0) by exact G.
  destruct (l_type t) as [| | | |c|c| | | |]; intros E; try (injection E as <-; rewrite !Z; exact D).
  - injection E as <-. rewrite !Z, pushSkip_guess by exact G1. exact D.
  - injection E as <-. rewrite !Z. eapply so_trans; [exact D|]. apply so_fields; reflexivity.
  - destruct (pop_comment s) as [[n s1]|] eqn:P; [|discriminate E]. destruct (so_pop_comment _ _ _ P) as [S1 S2].
    assert (Z1 : forall ty k x w, pushSkipToken ty k x w s1 = s1) by (intros; apply pushSkip_guess; congruence).
    assert (D1 : same_out s (drop1 s1)) by (eapply so_trans; [exact S1|apply so_fields; reflexivity]).
    assert (G2 : guessing (drop1 s1) <> 0) by (cbn; congruence).
    destruct c; try destruct (ends_line _); injection E as <-; rewrite ?Z1, ?(pushSkip_guess _ _ _ _ (drop1 s1)) by exact G2; exact D1.
Qed.

Lemma so_prim o s s' : prim o s s' -> guessing s <> 0 -> same_out s s'.
Proof.
  intros P G. destruct P as [e s s' E|e s s' E|s L|t r s E1 E2|e s|m s|m s s' E|m s s' E|e s s' E|l s s' E|m n l s s' E|m s s' E|s|s W
    |t r s s' E1 E2 E|s|x s|s s' E|n e s s' E].
  - unfold startElement in E. destruct (on_top _ s) as [s1| | |] eqn:Q; cbn [bind] in E; try discriminate E.
    injection E as <-. eapply so_trans; [|apply so_note_if]. rewrite pushTokenFlush_guess.
    + eapply so_on_top, Q.
    + rewrite (calm_g _ _ (calm_on_top _ _ _ Q)). exact G.
  - unfold startNoSkipElement in E. destruct (on_top _ s) as [s1| | |] eqn:Q; cbn [bind] in E; try discriminate E.
    injection E as <-. eapply so_trans; [|apply so_note_if]. rewrite pushToken_guess.
    + eapply so_on_top, Q.
    + rewrite (calm_g _ _ (calm_on_top _ _ _ Q)). exact G.
  - apply so_end, G.
  - apply so_modes.
  - unfold emptyElement. rewrite pushTokenFlush_guess by exact G. apply so_refl.
  - apply so_modes.
  - eapply so_on_top, E.
  - eapply so_on_top, E.
  - eapply so_on_top, E.
  - unfold dupMode in E. destruct (modes s); [discriminate E|]. injection E as <-. apply so_modes.
  - unfold insertModeAfter in E. destruct (cut _ _) as [[a b]|]; [|discriminate E]. injection E as <-. apply so_modes.
  - unfold dupDownOverMode in E. destruct (cut _ _) as [[a [|t r]]|]; try discriminate E. injection E as <-. apply so_modes.
  - apply so_flush.
  - unfold take. destruct (input s) as [|t r].
    + rewrite pushTokenFlush_guess; [apply so_note_if|]. match goal with |- guessing (note_if ?b _ _) <> 0 => destruct b; exact G end.
    + rewrite pushSkip_guess, pushTokenFlush_guess by exact G. destruct (is_skip_tok _ _); apply so_fields; reflexivity.
  - eapply so_skip_one; eassumption.
  - unfold completeSkip. destruct (pop_comment s) as [[n s1]|] eqn:P; [|apply so_refl].
    destruct (so_pop_comment _ _ _ P) as [S1 S2]. rewrite pushSkip_guess by congruence. exact S1.
  - apply so_fields; reflexivity.
  - apply so_nop, E.
  - unfold setType in E. destruct (find_tok _ _); [|discriminate E]. destruct (has_entry _ _); [|discriminate E].
    injection E as <-. eapply so_trans; [apply so_retype|apply so_modes].
Qed.

Lemma so_reach o s s' : reach o s s' -> guessing s <> 0 -> same_out s s'.
Proof.
  induction 1 as [s|s1 s2 s3 R1 IH1 R2 IH2|s s' P|s s' R IH|s s' R IH|g s s' G R IH|s s' G R IH]; intros H.
  - apply so_refl.
  - eapply so_trans; [apply IH1, H|apply IH2]. pose proof (drift_g _ _ (drift_reach _ _ _ R1)). lia.
  - eapply so_prim; eassumption.
  - eapply so_trans; [|eapply so_trans; [apply IH; cbn; lia|]]; apply so_fields; reflexivity.
  - eapply so_trans; [|eapply so_trans; [apply IH; cbn; lia|]]; apply so_fields; reflexivity.
  - assert (N : inskip s = false) by (unfold at_region in G; destruct (inskip s); [discriminate G|reflexivity]).
    destruct (IH H) as [A1 A2 A3]. assert (T1 : tidy (enter s)) by discriminate.
    assert (S1 : serial (leave_region s s') = serial s).
    { transitivity (serial s'); [|exact A2]. unfold leave_region. destruct (existsb _ _), (_ || _); reflexivity. }
    constructor; [|exact S1|].
    + intros _ _. unfold leave_region. destruct (existsb _ _), (_ || _); split; reflexivity.
    + intros T. rewrite everything_leave by (apply A1, T1). rewrite (A3 T1). reflexivity.
  - eapply so_trans; [|eapply so_trans; [apply IH, H|apply so_fields; reflexivity]].
    constructor; [discriminate|reflexivity|reflexivity].
Qed.

(** [guessing] is restored unless an exception escaped a look-ahead. *)
Lemma guessing_reach o s s' : reach o s s' -> In Fguess (log s') \/ guessing s' = guessing s.
Proof.
  induction 1 as [s|s1 s2 s3 R1 IH1 R2 IH2|s s' P|s s' R IH|s s' R IH|g s s' G R IH|s s' G R IH].
  - right. reflexivity.
  - destruct IH2 as [X|X]; [left; exact X|]. destruct IH1 as [Y|Y].
    + left. apply (drift_log _ _ (drift_reach _ _ _ R2)), Y.
    + right. congruence.
  - right. apply (calm_g _ _ (calm_prim _ _ _ P)).
  - destruct IH as [X|X]; [left; exact X|right]. cbn in *. rewrite X. reflexivity.
  - left. left. reflexivity.
  - assert (E : guessing (leave_region s s') = guessing s') by (unfold leave_region; destruct (existsb _ _), (_ || _); reflexivity).
    rewrite E. destruct IH as [X|X]; [left|right; exact X]. unfold leave_region.
    apply (calm_log _ _ (calm_note_if _ _ _)), (calm_log _ _ (calm_note_if _ _ _)), X.
  - destruct IH as [X|X]; [left; right; exact X|right; exact X].
Qed.

Lemma look_ahead o c b s s' : at_white s = false -> tidy s -> run o (Pguess c b Pdone) s = Ret s' ->
  input s' = input s /\ serial s' = serial s /\ map untyped (everything s') = map untyped (everything s) /\
  (In Fguess (log s') \/ guessing s' = guessing s).
Proof.
  intros W T E. cbn [run] in E. pose proof (proj1 (fine_run o) b (mark s) W) as F.
  assert (Q : forall s1, reach o (mark s) s1 -> rewind s s1 = s' ->
     input s' = input s /\ serial s' = serial s /\ map untyped (everything s') = map untyped (everything s) /\
     (In Fguess (log s') \/ guessing s' = guessing s)).
  { intros s1 R <-. assert (G : guessing (mark s) <> 0) by (cbn; lia).
    destruct (so_reach _ _ _ R G) as [A1 A2 A3]. split; [reflexivity|]. split; [exact A2|]. split; [exact (A3 T)|].
    destruct (guessing_reach _ _ _ R) as [X|X]; [left; exact X|right]. cbn in *. rewrite X. reflexivity. }
  destruct (run o b (mark s)) as [s1|x s1| |]; try discriminate E.
  - destruct F as [R _]. apply (Q s1 R). injection E as <-. reflexivity.
  - destruct F as [R _]. destruct (stops c x); [|discriminate E]. apply (Q s1 R). injection E as <-. reflexivity.
Qed.

(** In any parse. *)
Lemma parse_tidy o rs src cs l e s : pull o rs cs (construct src) = (l, e, s) -> tidy s.
Proof.
  intros P. destruct (construct_tb src) as [t [r [B [Q _]]]].
  destruct (pull_front o rs cs _ _ _ _ _ _ (construct_top src) B P) as [V _].
  apply (inv_tidy (source src)), (keeps_travels _ _ _ _ V), inv_construct.
Qed.
Lemma parse_inv o rs src cs l e s : pull o rs cs (construct src) = (l, e, s) -> Inv (source src) s.
Proof.
  intros P. destruct (construct_tb src) as [t [r [B [Q _]]]].
  destruct (pull_front o rs cs _ _ _ _ _ _ (construct_top src) B P) as [V _].
  apply (keeps_travels _ _ _ _ V), inv_construct.
Qed.
Lemma looking_ahead o rs src cs l e s p s1 c b s2 :
  pull o rs cs (construct src) = (l, e, s) -> at_skip s = false ->
  run o p s = Ret s1 -> run o (Pguess c b Pdone) s1 = Ret s2 ->
  input s2 = input s1 /\ serial s2 = serial s1 /\ map untyped (everything s2) = map untyped (everything s1) /\ (In Fguess (log s2) \/ guessing s2 = guessing s1).
Proof.
  intros P W R1 R2. pose proof (proj1 (fine_run o) p s (at_skip_white _ W)) as F. rewrite R1 in F. destruct F as [F W1].
  apply (look_ahead o c b s1 s2 W1); [|exact R2].
  apply (inv_tidy (source src)). apply (keeps_reach _ _ _ _ F), (parse_inv _ _ _ _ _ _ _ P).
Qed.
