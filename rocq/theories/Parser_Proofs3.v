(** C08: the text of the stream. *)
From Verif Require Import Base Parser_Model Parser_Spec Parser_Proofs Parser_Proofs2.

Definition text (l : list otok) : bytes := concat (map o_text l).
Lemma text_app a b : text (a ++ b) = text a ++ text b.
Proof. unfold text. rewrite map_app, concat_app. reflexivity. Qed.

(** [l'] is [l] with tags inserted and token types changed. *)
Inductive adorned : list otok -> list otok -> Prop :=
| ad_nil : adorned [] []
| ad_same t l l' : adorned l l' -> adorned (t :: l) (t :: l')
| ad_type e t l l' : adorned l l' -> adorned (t :: l) (retyped (TE e) t :: l')
| ad_ins t l l' : o_text t = [] -> o_type t <> TEof -> adorned l l' -> adorned l (t :: l').

Lemma adorned_refl l : adorned l l.
Proof. induction l; [apply ad_nil|apply ad_same; assumption]. Qed.

Lemma adorned_trans l2 l3 : adorned l2 l3 -> forall l1, adorned l1 l2 -> adorned l1 l3.
Proof.
  induction 1 as [|t l l' A IH|e t l l' A IH|t l l' H1 H2 A IH]; intros l1 B.
  - exact B.
  - remember (t :: l) as m eqn:M. revert M.
    induction B as [|u k k' B IB|f u k k' B IB|u k k' P1 P2 B IB]; intros M; try discriminate M.
    + injection M as -> ->. apply ad_same, IH, B.
    + injection M as <- ->. apply ad_type, IH, B.
    + injection M as -> ->. apply ad_ins; [assumption|assumption|]. apply IH, B.
  - remember (t :: l) as m eqn:M. revert M.
    induction B as [|u k k' B IB|f u k k' B IB|u k k' P1 P2 B IB]; intros M; try discriminate M.
    + injection M as -> ->. apply ad_type, IH, B.
    + injection M as <- ->. change (retyped (TE e) (retyped (TE f) u)) with (retyped (TE e) u).
      apply ad_type, IH, B.
    + injection M as -> ->. apply ad_ins; [exact P1|discriminate|]. apply IH, B.
  - apply ad_ins; [assumption|assumption|]. apply IH, B.
Qed.

Lemma adorned_app a a' b b' : adorned a a' -> adorned b b' -> adorned (a ++ b) (a' ++ b').
Proof.
  induction 1; intros B; cbn [app]; [exact B| | |].
  - apply ad_same. auto.
  - apply ad_type. auto.
  - apply ad_ins; auto.
Qed.

Lemma adorned_insert t a b : o_text t = [] -> o_type t <> TEof -> adorned (a ++ b) (a ++ t :: b).
Proof. intros A B. apply adorned_app; [apply adorned_refl|]. apply ad_ins; [assumption|assumption|apply adorned_refl]. Qed.

Lemma adorned_text l l' : adorned l l' -> text l' = text l.
Proof.
  induction 1 as [|t l l' A IH|e t l l' A IH|t l l' H1 H2 A IH]; [reflexivity| | |];
    unfold text in *; cbn [map concat o_text retyped]; rewrite IH; try reflexivity.
  rewrite H1. reflexivity.
Qed.

Lemma adorned_eof l l' : adorned l l' -> forall a e b, l' = a ++ e :: b -> o_type e = TEof ->
  exists a0 b0, l = a0 ++ e :: b0 /\ text a = text a0.
Proof.
  induction 1 as [|t l l' A IH|x t l l' A IH|t l l' H1 H2 A IH]; intros a e b E T.
  - destruct a; discriminate E.
  - destruct a as [|u a]; cbn [app] in E; injection E as <- E.
    + exists [], l. split; reflexivity.
    + destruct (IH _ _ _ E T) as [a0 [b0 [-> Q]]]. exists (t :: a0), b0. split; [reflexivity|].
      unfold text in *. cbn [map concat]. rewrite Q. reflexivity.
  - destruct a as [|u a]; cbn [app] in E; injection E as <- E; [discriminate T|].
    destruct (IH _ _ _ E T) as [a0 [b0 [-> Q]]]. exists (t :: a0), b0. split; [reflexivity|].
    unfold text in *. cbn [map concat]. rewrite Q. reflexivity.
  - destruct a as [|u a]; cbn [app] in E; injection E as <- E; [congruence|].
    destruct (IH _ _ _ E T) as [a0 [b0 [-> Q]]]. exists a0, b0. split; [reflexivity|].
    unfold text in *. cbn [map concat]. rewrite H1. exact Q.
Qed.

Lemma adorned_retype n e l : adorned l (retype1 n (TE e) l).
Proof.
  induction l as [|t l IH]; cbn [retype1 map]; [apply ad_nil|].
  destruct (o_id t =? n); [apply ad_type|apply ad_same]; exact IH.
Qed.

(** Redirected buffers are empty outside preprocessor handling. *)
Definition tidy s : Prop := inskip s = false -> pretb s = [] /\ skippretb s = [].

(** Steps that read no input and add no text. *)
Record quietly (s s' : ps) : Prop :=
  { q_calm : calm s s';
    q_input : input s' = input s;
    q_all : tidy s -> tidy s' /\ adorned (everything s) (everything s') }.

Lemma quietly_refl s : quietly s s.
Proof. constructor; [apply calm_refl|reflexivity|]. intros T. split; [exact T|apply adorned_refl]. Qed.
Lemma quietly_trans s1 s2 s3 : quietly s1 s2 -> quietly s2 s3 -> quietly s1 s3.
Proof.
  intros [A B C] [A' B' C']. constructor; [eapply calm_trans; eassumption|congruence|].
  intros T. destruct (C T) as [T2 D]. destruct (C' T2) as [T3 D']. split; [exact T3|].
  eapply adorned_trans; eassumption.
Qed.

Lemma quietly_same s s' : calm s s' -> input s' = input s -> everything s' = everything s ->
  pretb s' = pretb s -> skippretb s' = skippretb s -> quietly s s'.
Proof.
  intros A B C D E. constructor; [exact A|exact B|]. intros T. split.
  - intros I. rewrite D, E. apply T. rewrite <- (calm_in _ _ A). exact I.
  - rewrite C. apply adorned_refl.
Qed.

Lemma quietly_note_if b f s : quietly s (note_if b f s).
Proof. destruct b; [|apply quietly_refl]. apply quietly_same; try reflexivity. apply calm_note. Qed.
Lemma quietly_modes x s : quietly s (set_modes x s).
Proof. apply quietly_same; try reflexivity. apply calm_modes. Qed.
Lemma quietly_paused x s : quietly s (set_paused x s).
Proof. apply quietly_same; try reflexivity. apply calm_paused. Qed.
Lemma quietly_comments x s : quietly s (set_comments x s).
Proof. apply quietly_same; try reflexivity. apply calm_comments. Qed.

Lemma everything_flush s : tidy s -> everything (flushSkip s) = everything s.
Proof.
  intros T. unfold everything, buffered, flushSkip, set_skip, set_output, output, skip.
  destruct (inskip s) eqn:E; cbn; rewrite ?E; cbn; rewrite ?app_nil_r, <- ?app_assoc; reflexivity.
Qed.

Lemma tidy_flush s : tidy s -> tidy (flushSkip s).
Proof.
  intros T. unfold tidy, flushSkip, set_skip, set_output, output, skip.
  destruct (inskip s) eqn:E; cbn; rewrite ?E; cbn; [discriminate|]. intros _. apply T, E.
Qed.

Lemma quietly_flush s : quietly s (flushSkip s).
Proof.
  constructor; [apply calm_flush|apply input_flush|]. intros T.
  split; [apply tidy_flush, T|]. rewrite everything_flush by exact T. apply adorned_refl.
Qed.

Lemma tidy_calm_out x s : tidy s -> tidy (set_output x s).
Proof.
  intros T. unfold tidy, set_output. destruct (inskip s) eqn:E; cbn; [discriminate|]. intros _. apply T, E.
Qed.
Lemma tidy_calm_skip x s : tidy s -> tidy (set_skip x s).
Proof.
  intros T. unfold tidy, set_skip. destruct (inskip s) eqn:E; cbn; [discriminate|]. intros _. apply T, E.
Qed.

(** The token a push adds. *)
Definition newtok s ty k x w := OTok (serial s) ty k x w.

Lemma pushToken_everything ty k x w s : guessing s = 0 -> exists a b,
  everything s = a ++ b /\ everything (pushToken ty k x w s) = a ++ newtok s ty k x w :: b.
Proof.
  intros G. unfold pushToken, set_output, output. rewrite G. cbn [Nat.ltb Nat.leb].
  destruct (inskip s) eqn:E.
  - exists (popped s ++ tb s ++ skiptb s ++ pretb s), (skippretb s).
    unfold everything, buffered; cbn; rewrite <- !app_assoc; split; reflexivity.
  - exists (popped s ++ tb s), (skiptb s ++ pretb s ++ skippretb s).
    unfold everything, buffered; cbn; rewrite <- !app_assoc; split; reflexivity.
Qed.

Lemma pushSkip_everything ty k x w s : guessing s = 0 -> tidy s ->
  everything (pushSkipToken ty k x w s) = everything s ++ [newtok s ty k x w].
Proof.
  intros G T. unfold pushSkipToken, set_skip, skip. rewrite G. cbn [Nat.ltb Nat.leb].
  destruct (inskip s) eqn:E.
  - unfold everything, buffered; cbn; rewrite <- !app_assoc; reflexivity.
  - destruct (T E) as [P1 P2]. unfold everything, buffered; cbn. rewrite P1, P2, !app_nil_r, <- !app_assoc.
    reflexivity.
Qed.

Lemma flush_guessing s : guessing (flushSkip s) = guessing s.
Proof. apply calm_flush. Qed.
Lemma flush_serial s : serial (flushSkip s) = serial s.
Proof. unfold flushSkip, set_skip, set_output. destruct (inskip s) eqn:E; cbn; rewrite ?E; reflexivity. Qed.
Lemma flush_skip s : skip (flushSkip s) = [].
Proof. unfold flushSkip, skip, set_skip, set_output, output, skip. destruct (inskip s) eqn:E; cbn; rewrite ?E; cbn; rewrite ?E; reflexivity. Qed.

Lemma pushTokenFlush_everything ty k x w s : guessing s = 0 -> tidy s ->
  everything (pushTokenFlush ty k x w s) = everything s ++ [newtok s ty k x w].
Proof.
  intros G T. unfold pushTokenFlush. rewrite G. cbn [Nat.ltb Nat.leb].
  rewrite <- (everything_flush s T). pose proof (tidy_flush s T) as T2.
  pose proof (flush_skip s) as K.
  assert (N : newtok s ty k x w = newtok (flushSkip s) ty k x w) by (unfold newtok; rewrite flush_serial; reflexivity).
  rewrite N. rewrite <- flush_guessing in G. clear N T.
  set (u := flushSkip s) in *. clearbody u.
  unfold pushToken, set_output, output. rewrite G. cbn [Nat.ltb Nat.leb].
  unfold skip in K. destruct (inskip u) eqn:E.
  - unfold everything, buffered; cbn; rewrite K, !app_nil_r, <- !app_assoc; reflexivity.
  - destruct (T2 E) as [P1 P2]. unfold everything, buffered; cbn. rewrite K, P1, P2, !app_nil_r, <- !app_assoc.
    reflexivity.
Qed.

Lemma guess_out {A} s (a b : A) : guessing s <> 0 -> (if 0 <? guessing s then a else b) = a.
Proof. intros G. destruct (guessing s); [congruence|reflexivity]. Qed.

Lemma pushToken_guess ty k x w s : guessing s <> 0 -> pushToken ty k x w s = s.
Proof. apply guess_out. Qed.
Lemma pushTokenFlush_guess ty k x w s : guessing s <> 0 -> pushTokenFlush ty k x w s = s.
Proof. apply guess_out. Qed.
Lemma pushSkip_guess ty k x w s : guessing s <> 0 -> pushSkipToken ty k x w s = s.
Proof. apply guess_out. Qed.

Lemma tidy_pushToken ty k x w s : tidy s -> tidy (pushToken ty k x w s).
Proof. intros T. unfold pushToken. destruct (0 <? guessing s); [exact T|]. exact (tidy_calm_out _ s T). Qed.
Lemma tidy_pushTokenFlush ty k x w s : tidy s -> tidy (pushTokenFlush ty k x w s).
Proof.
  intros T. unfold pushTokenFlush. destruct (0 <? guessing s); [exact T|].
  apply tidy_pushToken, tidy_flush, T.
Qed.
Lemma tidy_pushSkip ty k x w s : tidy s -> tidy (pushSkipToken ty k x w s).
Proof. intros T. unfold pushSkipToken. destruct (0 <? guessing s); [exact T|]. exact (tidy_calm_skip _ s T). Qed.

Lemma quietly_pushToken ty k w s : ty <> TEof -> quietly s (pushToken ty k [] w s).
Proof.
  intros N. constructor; [apply calm_pushToken|apply input_pushToken|]. intros T.
  split; [apply tidy_pushToken, T|].
  destruct (Nat.eq_dec (guessing s) 0) as [G|G]; [|rewrite pushToken_guess by exact G; apply adorned_refl].
  destruct (pushToken_everything ty k [] w s G) as [a [b [-> ->]]].
  apply adorned_insert; [reflexivity|exact N].
Qed.
Lemma quietly_pushTokenFlush ty k w s : ty <> TEof -> quietly s (pushTokenFlush ty k [] w s).
Proof.
  intros N. constructor; [apply calm_pushTokenFlush|apply input_pushTokenFlush|]. intros T.
  split; [apply tidy_pushTokenFlush, T|].
  destruct (Nat.eq_dec (guessing s) 0) as [G|G]; [|rewrite pushTokenFlush_guess by exact G; apply adorned_refl].
  rewrite pushTokenFlush_everything by assumption.
  rewrite <- (app_nil_r (everything s)) at 1. apply adorned_insert; [reflexivity|exact N].
Qed.
Lemma quietly_pushSkip ty k w s : ty <> TEof -> quietly s (pushSkipToken ty k [] w s).
Proof.
  intros N. constructor; [apply calm_pushSkip|apply input_pushSkip|]. intros T.
  split; [apply tidy_pushSkip, T|].
  destruct (Nat.eq_dec (guessing s) 0) as [G|G]; [|rewrite pushSkip_guess by exact G; apply adorned_refl].
  rewrite pushSkip_everything by assumption.
  rewrite <- (app_nil_r (everything s)) at 1. apply adorned_insert; [reflexivity|exact N].
Qed.

Lemma retype1_nil n ty l : retype1 n ty l = [] -> l = [].
Proof. destruct l; [reflexivity|discriminate]. Qed.

Lemma quietly_retype n e s : popped s = popped s -> quietly s (retype_bufs n (TE e) s).
Proof.
  intros _. constructor; [apply calm_retype|reflexivity|]. intros T. split.
  - intros I. destruct (T I) as [A B]. cbn. rewrite A, B. split; reflexivity.
  - unfold everything, buffered. cbn.
    apply adorned_app; [apply adorned_refl|]. repeat apply adorned_app; apply adorned_retype.
Qed.

Lemma quietly_pop_comment s n s' : pop_comment s = Some (n, s') -> quietly s s'.
Proof.
  unfold pop_comment. destruct (comments s); [discriminate|]. intros E. injection E as <- <-.
  eapply quietly_trans; [|apply quietly_comments].
  eapply quietly_trans; [apply quietly_note_if|apply quietly_note_if].
Qed.

Lemma quietly_on_top f s s' : on_top f s = Ret s' -> quietly s s'.
Proof. unfold on_top. destruct (modes s); [discriminate|]. intros E. injection E as <-. apply quietly_modes. Qed.

Lemma quietly_end s : quietly s (endElement s).
Proof.
  unfold endElement. eapply quietly_trans; [|apply quietly_note_if]. unfold end_element.
  destruct (modes s) as [|t r]; [apply quietly_refl|].
  destruct (opened t) as [|[a e] oo]; [apply quietly_refl|].
  destruct (N.eqb _ _).
  - eapply quietly_trans; [|apply quietly_modes].
    eapply quietly_trans; [|apply quietly_pushToken; discriminate].
    eapply quietly_trans; [apply quietly_note_if|apply quietly_note_if].
  - eapply quietly_trans; [|apply quietly_modes].
    eapply quietly_trans; [|apply quietly_pushToken; discriminate].
    eapply quietly_trans; [|apply quietly_pushToken; discriminate]. apply quietly_note_if.
Qed.

Lemma quietly_complete s : quietly s (completeSkip s).
Proof.
  unfold completeSkip. destruct (pop_comment s) as [[n s1]|] eqn:P; [|apply quietly_refl].
  eapply quietly_trans; [eapply quietly_pop_comment, P|apply quietly_pushSkip; discriminate].
Qed.

Lemma quietly_nop s s' : nopStreamStart s = Ret s' -> quietly s s'.
Proof.
  unfold nopStreamStart. destruct (paused s); [|intros E; injection E as <-; apply quietly_refl].
  destruct (find_tok _ _); [|discriminate]. destruct (rev _); [discriminate|].
  destruct (ttype_eq_dec _ _); [|intros E; injection E as <-; apply quietly_refl].
  intros E. injection E as <-.
  eapply quietly_trans; [|apply quietly_paused]. eapply quietly_trans; [|apply quietly_note_if].
  eapply quietly_trans; apply quietly_retype; reflexivity.
Qed.

(** Steps that move the next source token into the stream. *)
Record eats (s s' : ps) : Prop :=
  { e_calm : calm s s';
    e_in : exists t r, input s = t :: r /\ input s' = r /\
           (tidy s -> tidy s' /\
             (guessing s <> 0 -> everything s' = everything s) /\
             (guessing s = 0 -> exists u, everything s' = everything s ++ [u] /\
                o_text u = l_text t /\ o_type u <> TEof)) }.

Lemma eats_skip t r ty k w s : input s = t :: r -> ty <> TEof ->
  eats s (drop1 (pushSkipToken ty k (l_text t) w s)).
Proof.
  intros I N. constructor; [eapply calm_trans; [apply calm_pushSkip|apply calm_drop1]|].
  exists t, r. split; [exact I|]. split; [cbn; rewrite input_pushSkip, I; reflexivity|].
  intros T. split; [exact (tidy_pushSkip _ _ _ _ _ T)|]. split.
  - intros G. rewrite pushSkip_guess by exact G. reflexivity.
  - intros G. exists (newtok s ty k (l_text t) w). split; [|split; [reflexivity|exact N]].
    exact (pushSkip_everything _ _ _ _ _ G T).
Qed.
Lemma eats_flush t r ty k w s : input s = t :: r -> ty <> TEof ->
  eats s (drop1 (pushTokenFlush ty k (l_text t) w s)).
Proof.
  intros I N. constructor; [eapply calm_trans; [apply calm_pushTokenFlush|apply calm_drop1]|].
  exists t, r. split; [exact I|]. split; [cbn; rewrite input_pushTokenFlush, I; reflexivity|].
  intros T. split; [exact (tidy_pushTokenFlush _ _ _ _ _ T)|]. split.
  - intros G. rewrite pushTokenFlush_guess by exact G. reflexivity.
  - intros G. exists (newtok s ty k (l_text t) w). split; [|split; [reflexivity|exact N]].
    exact (pushTokenFlush_everything _ _ _ _ _ G T).
Qed.

(** The invariant. *)
Record Inv (src : bytes) (s : ps) : Prop :=
  { inv_tidy : tidy s;
    inv_text : exists r, text (everything s) ++ r = src /\ (guessing s = 0 -> r = source (input s));
    inv_eof : forall a e b, everything s = a ++ e :: b -> o_type e = TEof -> text a = src }.

Definition keeps (src : bytes) (s s' : ps) : Prop :=
  Inv src s -> Inv src s' /\ (guessing s <> 0 -> text (everything s') = text (everything s)).

Lemma keeps_quietly src s s' : quietly s s' -> keeps src s s'.
Proof.
  intros [A B C] [T [r [X R]] E]. destruct (C T) as [T' D].
  pose proof (adorned_text _ _ D) as Q. split; [|intros _; exact Q].
  constructor; [exact T'| |].
  - exists r. rewrite Q, (calm_g _ _ A), B. split; [exact X|exact R].
  - intros a e b K L. destruct (adorned_eof _ _ D _ _ _ K L) as [a0 [b0 [K0 ->]]].
    eapply E; [exact K0|exact L].
Qed.

Lemma source_cons t r : source (t :: r) = l_text t ++ source r.
Proof. reflexivity. Qed.

Lemma keeps_eats src s s' : eats s s' -> keeps src s s'.
Proof.
  intros [A [t [r [I1 [I2 C]]]]] [T [r0 [X R]] E]. destruct (C T) as [T' [C1 C2]].
  destruct (Nat.eq_dec (guessing s) 0) as [G|G].
  - split; [|congruence]. destruct (C2 G) as [u [D [U1 U2]]].
    constructor; [exact T'| |].
    + exists (source (input s')). split; [|reflexivity]. rewrite D, text_app, I2.
      rewrite (R G), I1, source_cons in X. rewrite <- X, <- app_assoc.
      unfold text at 2. cbn [map concat]. rewrite U1, app_nil_r. reflexivity.
    + intros a e b K L. rewrite D in K.
      destruct b as [|y b].
      * apply app_inj_tail in K. destruct K as [_ K]. congruence.
      * assert (N : b = [] \/ b <> []) by (destruct b; [left|right]; congruence).
        destruct (exists_last (l := y :: b)) as [m [z Z]]; [discriminate|].
        rewrite Z in K. change (a ++ e :: m ++ [z]) with (a ++ (e :: m) ++ [z]) in K. rewrite app_assoc in K.
        apply app_inj_tail in K. destruct K as [K _]. eapply E; [exact K|exact L].
  - pose proof (C1 G) as D. split; [|intros _; rewrite D; reflexivity].
    constructor; [exact T'| |].
    + exists r0. rewrite D. split; [exact X|]. rewrite (calm_g _ _ A). congruence.
    + intros a e b K L. rewrite D in K. eapply E; eassumption.
Qed.

Lemma keeps_trans src s1 s2 s3 : guessing s2 = guessing s1 -> keeps src s1 s2 -> keeps src s2 s3 -> keeps src s1 s3.
Proof.
  intros G A B I. destruct (A I) as [I2 X]. destruct (B I2) as [I3 Y]. split; [exact I3|].
  intros H. rewrite Y by congruence. apply X, H.
Qed.

Lemma keeps_skip_one src t r s s' : input s = t :: r -> skip_one t s = Ret s' -> keeps src s s'.
Proof.
  intros N. unfold skip_one.
  assert (Q : forall a b, quietly a b -> keeps src a b /\ guessing b = guessing a).
  { intros a b H. split; [apply keeps_quietly, H|apply H]. }
  assert (Z : forall a ty k w, input a = t :: r -> ty <> TEof ->
    keeps src a (drop1 (pushSkipToken ty k (l_text t) w a)) /\
    guessing (drop1 (pushSkipToken ty k (l_text t) w a)) = guessing a).
  { intros a ty k w H H1. pose proof (eats_skip t r ty k w a H H1) as H2.
    split; [apply keeps_eats, H2|apply H2]. }
  assert (J : forall a b c, keeps src a b /\ guessing b = guessing a ->
     keeps src b c /\ guessing c = guessing b -> keeps src a c /\ guessing c = guessing a).
  { intros a b c [H1 H2] [H3 H4]. split; [eapply keeps_trans; eassumption|congruence]. }
  assert (P : forall a k w e, input (pushSkipToken (TE e) k [] w a) = input a) by (intros; apply input_pushSkip).
  destruct (l_type t) as [n| | | |c|c| | | |n] eqn:L.
  all: try (intros E; injection E as <-; apply Z; [exact N|discriminate]).
  - (* whole comment *)
    intros E. injection E as <-.
    refine (proj1 (J _ _ _ (Q _ _ (quietly_pushSkip (TE (Ecomment Cblock)) Kstart None s ltac:(discriminate)))
             (J _ _ _ (Z (pushSkipToken (TE (Ecomment Cblock)) Kstart [] None s) (TL Lwhole) Ktext None
                          ltac:(rewrite P; exact N) ltac:(discriminate))
                      (Q _ _ (quietly_pushSkip (TE (Ecomment Cblock)) _ _ _ ltac:(discriminate)))))).
  - (* comment start *)
    intros E. injection E as <-.
    refine (proj1 (J _ _ _ (Q _ _ (quietly_pushSkip (TE (Ecomment c)) Kstart None s ltac:(discriminate)))
             (J _ _ _ (Z (pushSkipToken (TE (Ecomment c)) Kstart [] None s) (TL (Lopen c)) Ktext None
                          ltac:(rewrite P; exact N) ltac:(discriminate))
                      (Q _ _ (quietly_comments _ _))))).
  - destruct (pop_comment s) as [[n s1]|] eqn:PC; [|discriminate].
    pose proof (Q _ _ (quietly_pop_comment _ _ _ PC)) as Q1.
    pose proof (input_pop_comment _ _ _ PC) as N1. rewrite N in N1.
    assert (late : keeps src s (pushSkipToken (TE (Ecomment c)) Kend [] n
                      (drop1 (pushSkipToken (TL (Lclose c)) Ktext (l_text t) None s1)))).
    { exact (proj1 (J _ _ _ Q1 (J _ _ _ (Z s1 (TL (Lclose c)) Ktext None N1 ltac:(discriminate))
               (Q _ _ (quietly_pushSkip (TE (Ecomment c)) _ _ _ ltac:(discriminate)))))). }
    assert (early : keeps src s (drop1 (pushSkipToken (TL (Lclose c)) Ktext (l_text t) None
                      (pushSkipToken (TE (Ecomment c)) Kend [] n s1)))).
    { exact (proj1 (J _ _ _ Q1 (J _ _ _ (Q _ _ (quietly_pushSkip (TE (Ecomment c)) Kend n s1 ltac:(discriminate)))
               (Z (pushSkipToken (TE (Ecomment c)) Kend [] n s1) (TL (Lclose c)) Ktext None
                  ltac:(rewrite P; exact N1) ltac:(discriminate))))). }
    destruct c; try destruct (ends_line (l_text t)); intros E; injection E as <-; assumption.
Qed.

Lemma keeps_take src s : keeps src s (take s).
Proof.
  unfold take. destruct (input s) as [|t r] eqn:N.
  - cbv zeta. match goal with |- keeps _ _ (pushTokenFlush _ _ _ _ ?u) => set (s1 := u) end.
    apply (keeps_trans src s s1); [unfold s1; apply calm_note_if|unfold s1; apply keeps_quietly, quietly_note_if|].
    assert (N1 : input s1 = []) by (unfold s1; rewrite input_note_if; exact N). clearbody s1.
    intros [T [r [X R]] E].
    destruct (Nat.eq_dec (guessing s1) 0) as [G|G].
    + split; [|congruence].
      pose proof (pushTokenFlush_everything TEof Ktext [] None s1 G T) as D.
      constructor; [apply tidy_pushTokenFlush, T| |].
      * exists []. rewrite D, text_app. cbn. rewrite (R G), N1 in X. cbn in X.
        rewrite !app_nil_r in *. split; [exact X|]. intros _. rewrite input_pushTokenFlush, N1. reflexivity.
      * intros a e b K L. rewrite D in K.
        destruct b as [|y b].
        -- apply app_inj_tail in K. destruct K as [<- _].
           rewrite (R G), N1 in X. cbn in X. rewrite app_nil_r in X. exact X.
        -- destruct (exists_last (l := y :: b)) as [m [z Z]]; [discriminate|].
           rewrite Z in K. change (a ++ e :: m ++ [z]) with (a ++ (e :: m) ++ [z]) in K. rewrite app_assoc in K.
           apply app_inj_tail in K. destruct K as [K _]. eapply E; [exact K|exact L].
    + rewrite pushTokenFlush_guess by exact G. split; [|reflexivity].
      constructor; [exact T|exists r; split; assumption|exact E].
  - destruct (is_skip_tok _ _); apply keeps_eats.
    + apply (eats_skip t r (TL (l_type t)) Ktext None s N). discriminate.
    + apply (eats_flush t r (TL (l_type t)) Ktext None s N). discriminate.
Qed.

Lemma keeps_prim src o s s' : prim o s s' -> keeps src s s'.
Proof.
  intros P. destruct P.
  - unfold startElement in H. destruct (on_top _ s) eqn:E; cbn [bind] in H; try discriminate H.
    injection H as <-. apply keeps_quietly. eapply quietly_trans; [|apply quietly_note_if].
    eapply quietly_trans; [eapply quietly_on_top, E|apply quietly_pushTokenFlush; discriminate].
  - unfold startNoSkipElement in H. destruct (on_top _ s) eqn:E; cbn [bind] in H; try discriminate H.
    injection H as <-. apply keeps_quietly. eapply quietly_trans; [|apply quietly_note_if].
    eapply quietly_trans; [eapply quietly_on_top, E|apply quietly_pushToken; discriminate].
  - apply keeps_quietly, quietly_end.
  - apply keeps_quietly, quietly_modes.
  - apply keeps_quietly, quietly_pushTokenFlush. discriminate.
  - apply keeps_quietly, quietly_modes.
  - eapply keeps_quietly, quietly_on_top, H.
  - eapply keeps_quietly, quietly_on_top, H.
  - eapply keeps_quietly, quietly_on_top, H.
  - unfold dupMode in H. destruct (modes s); [discriminate H|]. injection H as <-. apply keeps_quietly, quietly_modes.
  - unfold insertModeAfter in H. destruct (cut _ _) as [[? ?]|]; [|discriminate H].
    injection H as <-. apply keeps_quietly, quietly_modes.
  - unfold dupDownOverMode in H. destruct (cut _ _) as [[? [|? ?]]|]; try discriminate H.
    injection H as <-. apply keeps_quietly, quietly_modes.
  - apply keeps_quietly, quietly_flush.
  - apply keeps_take.
  - eapply keeps_skip_one; eassumption.
  - apply keeps_quietly, quietly_complete.
  - apply keeps_quietly, quietly_paused.
  - apply keeps_quietly, quietly_nop, H.
  - unfold setType in H. destruct (find_tok _ _); [|discriminate H].
    destruct (has_entry _ _); [|discriminate H]. injection H as <-. apply keeps_quietly.
    eapply quietly_trans; [apply quietly_retype; reflexivity|apply quietly_modes].
Qed.

Lemma everything_leave n s : tidy s -> everything (leave_region n s) = everything s.
Proof.
  intros _. unfold leave_region, everything, buffered.
  assert (A : forall b f u, popped (note_if b f u) = popped u /\ tb (note_if b f u) = tb u /\
    skiptb (note_if b f u) = skiptb u /\ pretb (note_if b f u) = pretb u /\
    skippretb (note_if b f u) = skippretb u) by (intros [] f u; repeat split).
  do 2 match goal with |- context [popped (note_if ?b ?f ?u)] => destruct (A b f u) as [-> [-> [-> [-> ->]]]] end.
  cbn. rewrite !app_nil_r, <- ?app_assoc. reflexivity.
Qed.

Lemma keeps_reach src o s s' : reach o s s' -> keeps src s s'.
Proof.
  induction 1 as [s|s1 s2 s3 R1 IH1 R2 IH2|s s' P|s s' R IH|s s' R IH|g s s' G R IH|s s' G R IH].
  - intros I. split; [exact I|reflexivity].
  - intros I. destruct (IH1 I) as [I2 X]. destruct (IH2 I2) as [I3 Y]. split; [exact I3|].
    intros H. destruct (drift_reach _ _ _ R1) as [D _ _]. rewrite Y by lia. apply X, H.
  - eapply keeps_prim, P.
  - intros I. destruct I as [T [r [X Rr]] E].
    assert (IM : Inv src (mark s)).
    { constructor; [exact T| |exact E]. exists r. split; [exact X|]. cbn. discriminate. }
    destruct (IH IM) as [[T' [r' [X' _]] E'] Q].
    assert (Q' : text (everything s') = text (everything s)) by (apply Q; cbn; discriminate).
    split; [|intros _; exact Q'].
    constructor; [exact T'| |exact E'].
    exists r. change (everything (rewind s s')) with (everything s'). rewrite Q'. split; [exact X|].
    cbn. intros H. apply Rr. destruct (drift_reach _ _ _ R) as [D _ _]. cbn in D. lia.
  - intros I. destruct I as [T [r [X Rr]] E].
    assert (IM : Inv src (mark s)).
    { constructor; [exact T| |exact E]. exists r. split; [exact X|]. cbn. discriminate. }
    destruct (IH IM) as [[T' [r' [X' R']] E'] Q].
    split; [|intros _; apply Q; cbn; discriminate].
    constructor; [exact T'| |exact E']. exists r'. split; assumption.
  - intros I. destruct I as [T [r [X Rr]] E].
    assert (N : inskip s = false) by (unfold at_region in G; destruct (inskip s); [discriminate G|reflexivity]).
    destruct (T N) as [P1 P2].
    assert (IM : Inv src (enter s)).
    { constructor; [discriminate| |exact E]. exists r. split; assumption. }
    destruct (IH IM) as [[T' [r' [X' R']] E'] Q].
    pose proof (everything_leave s s' T') as L.
    assert (B : guessing (leave_region s s') = guessing s' /\
                input (leave_region s s') = input s' /\
                pretb (leave_region s s') = [] /\ skippretb (leave_region s s') = []).
    { unfold leave_region, note_if. destruct (existsb _ _), (_ || _); repeat split; reflexivity. }
    destruct B as [B1 [B2 [B3 B4]]].
    split; [|intros H; rewrite L; apply Q, H].
    constructor.
    + intros _. split; assumption.
    + exists r'. rewrite L, B1, B2. split; assumption.
    + rewrite L. exact E'.
  - intros I. destruct I as [T [r [X Rr]] E].
    assert (IM : Inv src (enter s)).
    { constructor; [discriminate| |exact E]. exists r. split; assumption. }
    destruct (IH IM) as [[T' [r' [X' R']] E'] Q].
    split; [|intros H; apply Q, H].
    constructor; [exact T'|exists r'; split; assumption|exact E'].
Qed.

Lemma everything_pop t r s : tb s = t :: r -> everything (after_pop t r s) = everything s.
Proof. intros B. unfold everything, buffered. cbn. rewrite B, <- !app_assoc. reflexivity. Qed.

Lemma keeps_travels src o s s' : travels o s s' -> Inv src s -> Inv src s'.
Proof.
  induction 1 as [s|s1 s2 s3 V IH R|s1 s2 t r V IH B]; intros I; [exact I| |].
  - apply (keeps_reach src _ _ _ R (IH I)).
  - destruct (IH I) as [T X E]. constructor; [exact T| |].
    + rewrite (everything_pop t r s2 B). exact X.
    + rewrite (everything_pop t r s2 B). exact E.
Qed.

Lemma inv_construct src : Inv (source src) (construct src).
Proof.
  constructor.
  - intros _. split; reflexivity.
  - exists (source src). split; reflexivity.
  - intros a e b K L. vm_compute in K.
    destruct a as [|x [|y [|z a]]]; cbn in K; try discriminate K; injection K; intros; subst; discriminate L.
Qed.

Lemma construct_tb src : exists t r, tb (construct src) = t :: r /\ popped (construct src) = [] /\
  t = OTok 0 (TE Eunit) Kstart [] None.
Proof.
  exists (OTok 0 (TE Eunit) Kstart [] None), [OTok 1 (TE Eunit) Kempty [] None].
  split; [vm_compute; reflexivity|]. split; [vm_compute; reflexivity|reflexivity].
Qed.

Lemma construct_top src : top_ok (construct src).
Proof. discriminate. Qed.

Lemma stream_text o rs src cs l e s :
  pull o rs cs (construct src) = (l, e, s) ->
  prefix_of (concat (map o_text l)) (source src) /\
  (e = AtEof -> concat (map o_text l) = source src).
Proof.
  intros P. destruct (construct_tb src) as [t [r [B [Q ->]]]].
  destruct (pull_front o rs cs _ _ _ _ _ _ (construct_top src) B P) as [V [_ [b [E F]]]].
  destruct (keeps_travels _ _ _ _ V (inv_construct src)) as [_ [x [X _]] Z].
  rewrite Q in E. cbn [app] in E.
  split.
  - exists (text b ++ x). rewrite app_assoc, <- X, E.
    change (OTok 0 (TE Eunit) Kstart [] None :: l ++ b) with ((OTok 0 (TE Eunit) Kstart [] None :: l) ++ b).
    rewrite text_app. reflexivity.
  - intros H. destruct (F H) as [y [b' [-> Y]]].
    apply (Z (OTok 0 (TE Eunit) Kstart [] None :: l) y b' E Y).
Qed.
