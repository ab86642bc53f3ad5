(** What every step leaves alone; the pull interface as a sequence of steps. *)
From Verif Require Import Base Parser_Model Parser_Spec Parser_Proofs.

(** Guessing level, log and buffer redirection along a step. *)
Record calm (s s' : ps) : Prop :=
  { calm_g : guessing s' = guessing s;
    calm_log : incl (log s) (log s');
    calm_in : inskip s' = inskip s }.

Lemma calm_refl s : calm s s.
Proof. constructor; try reflexivity. apply incl_refl. Qed.
Lemma calm_trans s1 s2 s3 : calm s1 s2 -> calm s2 s3 -> calm s1 s3.
Proof.
  intros [A B C] [A' B' C']. constructor; try congruence. eapply incl_tran; eassumption.
Qed.

Lemma calm_note f s : calm s (note f s).
Proof. constructor; try reflexivity. cbn. intros x H. right. exact H. Qed.
Lemma calm_note_if b f s : calm s (note_if b f s).
Proof. destruct b; [apply calm_note|apply calm_refl]. Qed.
Lemma calm_modes x s : calm s (set_modes x s).
Proof. constructor; try reflexivity. apply incl_refl. Qed.
Lemma calm_paused x s : calm s (set_paused x s).
Proof. constructor; try reflexivity. apply incl_refl. Qed.
Lemma calm_comments x s : calm s (set_comments x s).
Proof. constructor; try reflexivity. apply incl_refl. Qed.
Lemma calm_input x s : calm s (set_input x s).
Proof. constructor; try reflexivity. apply incl_refl. Qed.
Lemma calm_serial x s : calm s (set_serial x s).
Proof. constructor; try reflexivity. apply incl_refl. Qed.
Lemma calm_popped x s : calm s (set_popped x s).
Proof. constructor; try reflexivity. apply incl_refl. Qed.
Lemma calm_bufs a b c d s : calm s (set_bufs (inskip s) a b c d s).
Proof. constructor; try reflexivity. apply incl_refl. Qed.
Lemma calm_output x s : calm s (set_output x s).
Proof. unfold set_output. destruct (inskip s) eqn:E; rewrite <- E; apply calm_bufs. Qed.
Lemma calm_skip x s : calm s (set_skip x s).
Proof. unfold set_skip. destruct (inskip s) eqn:E; rewrite <- E; apply calm_bufs. Qed.
Lemma calm_flush s : calm s (flushSkip s).
Proof. unfold flushSkip. eapply calm_trans; [apply calm_output|apply calm_skip]. Qed.
Lemma calm_pushToken ty k x w s : calm s (pushToken ty k x w s).
Proof.
  unfold pushToken. destruct (0 <? guessing s); [apply calm_refl|].
  eapply calm_trans; [apply calm_output|apply calm_serial].
Qed.
Lemma calm_pushTokenFlush ty k x w s : calm s (pushTokenFlush ty k x w s).
Proof.
  unfold pushTokenFlush. destruct (0 <? guessing s); [apply calm_refl|].
  eapply calm_trans; [apply calm_flush|apply calm_pushToken].
Qed.
Lemma calm_pushSkip ty k x w s : calm s (pushSkipToken ty k x w s).
Proof.
  unfold pushSkipToken. destruct (0 <? guessing s); [apply calm_refl|].
  eapply calm_trans; [apply calm_skip|apply calm_serial].
Qed.
Lemma calm_drop1 s : calm s (drop1 s).
Proof. apply calm_input. Qed.
Lemma calm_retype n ty s : calm s (retype_bufs n ty s).
Proof. apply calm_bufs. Qed.
Lemma calm_pop_comment s n s' : pop_comment s = Some (n, s') -> calm s s'.
Proof.
  unfold pop_comment. destruct (comments s); [discriminate|]. intros E. injection E as <- <-.
  eapply calm_trans; [|apply calm_comments].
  eapply calm_trans; [apply calm_note_if|apply calm_note_if].
Qed.

Lemma calm_on_top f s s' : on_top f s = Ret s' -> calm s s'.
Proof. unfold on_top. destruct (modes s); [discriminate|]. intros E. injection E as <-. apply calm_modes. Qed.

Lemma calm_end s : calm s (endElement s).
Proof.
  unfold endElement. eapply calm_trans; [|apply calm_note_if]. unfold end_element.
  destruct (modes s) as [|t r]; [apply calm_refl|].
  destruct (opened t) as [|[a e] oo]; [apply calm_refl|].
  destruct (N.eqb _ _).
  - eapply calm_trans; [|apply calm_modes]. eapply calm_trans; [|apply calm_pushToken].
    eapply calm_trans; [apply calm_note_if|apply calm_note_if].
  - eapply calm_trans; [|apply calm_modes]. eapply calm_trans; [|apply calm_pushToken].
    eapply calm_trans; [|apply calm_pushToken]. apply calm_note_if.
Qed.

Lemma calm_take s : calm s (take s).
Proof.
  unfold take. destruct (input s) as [|t r].
  - eapply calm_trans; [apply calm_note_if|apply calm_pushTokenFlush].
  - destruct (is_skip_tok _ _).
    + eapply calm_trans; [apply calm_pushSkip|apply calm_drop1].
    + eapply calm_trans; [apply calm_pushTokenFlush|apply calm_drop1].
Qed.

Ltac calm_chain :=
  repeat first
    [ apply calm_refl | apply calm_pushSkip | apply calm_drop1 | apply calm_comments
    | (eapply calm_trans; [|first [apply calm_pushSkip | apply calm_drop1 | apply calm_comments]]) ].

Lemma calm_skip_one t s s' : skip_one t s = Ret s' -> calm s s'.
Proof.
  unfold skip_one. destruct (l_type t).
  all: try (intros E; injection E as <-; calm_chain; fail).
  destruct (pop_comment s) as [[n s1]|] eqn:P; [|discriminate].
  apply calm_pop_comment in P.
  assert (Q : forall s2, calm s1 s2 -> calm s s2) by (intros s2; apply calm_trans, P).
  destruct c; try destruct (ends_line _); intros E; injection E as <-; apply Q; calm_chain.
Qed.

Lemma calm_complete s : calm s (completeSkip s).
Proof.
  unfold completeSkip. destruct (pop_comment s) as [[n s1]|] eqn:P; [|apply calm_refl].
  eapply calm_trans; [eapply calm_pop_comment, P|apply calm_pushSkip].
Qed.

Lemma calm_nop s s' : nopStreamStart s = Ret s' -> calm s s'.
Proof.
  unfold nopStreamStart. destruct (paused s); [|intros E; injection E as <-; apply calm_refl].
  destruct (find_tok _ _); [|discriminate]. destruct (rev _); [discriminate|].
  destruct (ttype_eq_dec _ _); [|intros E; injection E as <-; apply calm_refl].
  intros E. injection E as <-.
  eapply calm_trans; [|apply calm_paused]. eapply calm_trans; [|apply calm_note_if].
  eapply calm_trans; apply calm_retype.
Qed.

Lemma calm_prim o s s' : prim o s s' -> calm s s'.
Proof.
  intros P. destruct P.
  - unfold startElement in H. destruct (on_top _ s) eqn:E; cbn [bind] in H; try discriminate H.
    injection H as <-. eapply calm_trans; [|apply calm_note_if]. eapply calm_trans; [eapply calm_on_top, E|apply calm_pushTokenFlush].
  - unfold startNoSkipElement in H. destruct (on_top _ s) eqn:E; cbn [bind] in H; try discriminate H.
    injection H as <-. eapply calm_trans; [|apply calm_note_if]. eapply calm_trans; [eapply calm_on_top, E|apply calm_pushToken].
  - apply calm_end.
  - apply calm_modes.
  - apply calm_pushTokenFlush.
  - apply calm_modes.
  - eapply calm_on_top, H.
  - eapply calm_on_top, H.
  - eapply calm_on_top, H.
  - unfold dupMode in H. destruct (modes s); [discriminate H|]. injection H as <-. apply calm_modes.
  - unfold insertModeAfter in H. destruct (cut _ _) as [[? ?]|]; [|discriminate H].
    injection H as <-. apply calm_modes.
  - unfold dupDownOverMode in H. destruct (cut _ _) as [[? [|? ?]]|]; try discriminate H.
    injection H as <-. apply calm_modes.
  - apply calm_flush.
  - apply calm_take.
  - eapply calm_skip_one; eassumption.
  - apply calm_complete.
  - apply calm_paused.
  - apply calm_nop, H.
  - unfold setType in H. destruct (find_tok _ _); [|discriminate H].
    destruct (has_entry _ _); [|discriminate H]. injection H as <-.
    eapply calm_trans; [apply calm_retype|apply calm_modes].
Qed.

(** Along any number of steps. *)
Record drift (s s' : ps) : Prop :=
  { drift_g : guessing s <= guessing s';
    drift_log : incl (log s) (log s');
    drift_in : inskip s' = inskip s \/ In Fmacro (log s') }.

Lemma drift_reach o s s' : reach o s s' -> drift s s'.
Proof.
  induction 1 as [s|s1 s2 s3 _ [A B C] _ [A' B' C']|s s' P|s s' _ [A B C]|s s' _ [A B C]
                 |g s s' G _ [A B C]|s s' G _ [A B C]].
  - constructor; [lia|apply incl_refl|left; reflexivity].
  - constructor; [lia|eapply incl_tran; eassumption|].
    destruct C' as [C'|C']; [|right; exact C']. destruct C as [C|C].
    + left. congruence.
    + right. apply B', C.
  - destruct (calm_prim _ _ _ P) as [A B C]. constructor; [lia|exact B|left; exact C].
  - cbn in *. constructor; cbn; [lia|exact B|exact C].
  - cbn in *. constructor; cbn; [lia|intros x H; right; apply B, H|].
    destruct C as [C|C]; [left; exact C|right; right; exact C].
  - unfold leave_region.
    match goal with |- drift _ (note_if ?x ?f (note_if ?y ?g ?u)) =>
      pose proof (calm_trans _ _ _ (calm_note_if y g u) (calm_note_if x f (note_if y g u))) as [K1 K2 K3];
      set (w := note_if x f (note_if y g u)) in * end. clearbody w.
    cbn in A, B, K1, K2, K3. constructor.
    + rewrite K1. exact A.
    + eapply incl_tran; eassumption.
    + left. unfold at_region in G. destruct (inskip s); [discriminate G|]. exact K3.
  - cbn in *. constructor; cbn; [exact A|intros x H; right; apply B, H|right; left; reflexivity].
Qed.

(** The buffers are only redirected at the top level after a macro call failed. *)
Definition top_ok (s : ps) : Prop := inskip s = true -> In Fmacro (log s).

Lemma top_ok_reach o s s' : reach o s s' -> top_ok s -> top_ok s'.
Proof.
  intros R T I. destruct (drift_reach _ _ _ R) as [_ B [C|C]]; [|exact C].
  apply B, T. congruence.
Qed.

Lemma fill_reached o rs p s : top_ok s -> reached o s (fillTokenBuffer o rs p s).
Proof.
  intros T. unfold fillTokenBuffer.
  assert (E : forall r, reached o s r ->
    reached o s match r with
                | Exn Fault s => Ret (emptyElement Eerror s)
                | Exn Recognition s => if rs then Ret (emptyElement Eerror s) else Exn Recognition s
                | r => r end).
  { intros r R. destruct r as [s'|[|] s'| |]; cbn [reached] in *; try exact I; try exact R.
    - destruct rs; cbn [reached]; [|exact R]. eapply r_trans; [exact R|apply r_prim, p_empty].
    - eapply r_trans; [exact R|apply r_prim, p_empty]. }
  apply E.
  destruct (at_skip s) eqn:K.
  - destruct (input s) as [|t r] eqn:N; [apply r_refl|].
    unfold at_skip in K. rewrite N in K.
    apply reached_bind.
    + destruct (skip_one t s) eqn:S1; cbn [reached]; try exact I.
      * apply r_prim. eapply p_skip; eassumption.
      * exfalso. eapply skip_one_no_exn, S1.
    + intros s' _. apply r_prim, p_flush.
  - destruct (at_region o s) as [g|] eqn:G.
    + apply reached_bind; [|intros s' _; apply r_prim, p_flush].
      pose proof (fine_region o g s (run o p (enter s)) G
        (proj1 (fine_run o) p (enter s) (at_region_white o s g G))) as F.
      destruct (run_region g s (run o p (enter s))); cbn [fine reached] in *; try exact I; apply F.
    + pose proof (proj1 (fine_run o) p s (at_skip_white s K)) as F.
      destruct (run o p s); cbn [fine reached] in *; try exact I; apply F.
Qed.

Lemma reached_loop o bs s : reached o s (loop o bs s).
Proof.
  pose proof (proj2 (fine_run o) bs s) as F.
  destruct (loop o bs s); cbn [fine reached] in *; try exact I; apply F.
Qed.

Lemma reached_consume o bs s :
  (at_white s = true -> 0 < guessing s \/ In Fmacro (log s)) -> reached o s (loop o bs (take s)).
Proof.
  intros W. pose proof (reached_loop o bs (take s)) as A.
  destruct (loop o bs (take s)); cbn [reached] in *; try exact I;
    (eapply r_trans; [apply r_prim, p_take, W|exact A]).
Qed.

Lemma not_skip_white s : at_skip s = false -> at_white s = true -> 0 < guessing s \/ In Fmacro (log s).
Proof. intros A B. rewrite (at_skip_white s A) in B. discriminate B. Qed.

Lemma set_skip_tb x s : tb (set_skip x s) = tb s.
Proof. unfold set_skip. destruct (inskip s); reflexivity. Qed.
Lemma flush_tb s : inskip s = false -> tb (flushSkip s) = tb s ++ skiptb s.
Proof.
  intros E. unfold flushSkip. rewrite set_skip_tb. unfold set_output, output, skip. rewrite E. reflexivity.
Qed.

Lemma pushSkip_ne ty k x w s :
  guessing s = 0 -> inskip s = false -> skiptb (pushSkipToken ty k x w s) <> [].
Proof.
  intros G N. unfold pushSkipToken. rewrite G. cbn [Nat.ltb Nat.leb].
  unfold set_skip, skip. rewrite N. cbn. destruct (skiptb s); discriminate.
Qed.

Lemma skip_one_ne t s s' :
  guessing s = 0 -> inskip s = false -> skip_one t s = Ret s' -> skiptb s' <> [].
Proof.
  intros G N.
  assert (P : forall s1 ty k x w, calm s s1 -> skiptb (pushSkipToken ty k x w s1) <> []).
  { intros s1 ty k x w [C1 _ C3]. apply pushSkip_ne; congruence. }
  unfold skip_one. destruct (l_type t).
  all: try (intros E; injection E as <-; cbn [skiptb drop1 set_input set_comments];
            apply P; calm_chain; fail).
  destruct (pop_comment s) as [[n s1]|] eqn:Q; [|discriminate].
  apply calm_pop_comment in Q.
  assert (R : forall s2, calm s1 s2 -> calm s s2) by (intros s2; apply calm_trans, Q).
  destruct c; try destruct (ends_line _); intros E; injection E as <-;
    cbn [skiptb drop1 set_input]; apply P, R; calm_chain.
Qed.

(** fillTokenBuffer leaves white space in front only if the buffer got something, or the parser is
    stuck in a look-ahead or a failed macro call. *)
Lemma fill_white o rs p s s' :
  fillTokenBuffer o rs p s = Ret s' -> tb s' = [] -> top_ok s ->
  at_white s' = true -> 0 < guessing s' \/ In Fmacro (log s').
Proof.
  intros F B T W. unfold fillTokenBuffer in F.
  assert (Z : forall s1, at_white s1 = false -> at_white (emptyElement Eerror s1) = false).
  { intros s1 Q. rewrite (white_input s1); [exact Q|apply input_pushTokenFlush]. }
  destruct (at_skip s) eqn:K.
  - destruct (input s) as [|t r] eqn:N; [unfold at_skip in K; rewrite N in K; discriminate K|].
    destruct (skip_one t s) as [s1|x s1| |] eqn:S1; cbn [bind] in F; try discriminate F.
    2: exfalso; eapply skip_one_no_exn, S1.
    injection F as <-. pose proof (calm_skip_one _ _ _ S1) as [C1 C2 C3].
    destruct (calm_flush s1) as [D1 D2 D3].
    destruct (guessing s) as [|g] eqn:G; [|left; lia].
    destruct (inskip s) eqn:I; [right; apply D2, C2, T, I|].
    exfalso. rewrite flush_tb in B by congruence.
    apply app_eq_nil in B. apply (skip_one_ne _ _ _ G I S1), B.
  - exfalso. revert F.
    destruct (at_region o s) as [g|] eqn:G.
    + pose proof (fine_region o g s (run o p (enter s)) G
        (proj1 (fine_run o) p (enter s) (at_region_white o s g G))) as F.
      destruct (run_region g s (run o p (enter s))) as [s1|x s1| |]; cbn [bind fine] in *;
        try discriminate.
      * intros E. injection E as <-. rewrite (white_input s1) in W by apply input_flush.
        destruct F as [_ F]. rewrite F in W. discriminate W.
      * destruct F as [_ F]. destruct x.
        -- destruct rs; [|discriminate]. intros E. injection E as <-. rewrite (Z _ F) in W. discriminate W.
        -- intros E. injection E as <-. rewrite (Z _ F) in W. discriminate W.
    + pose proof (proj1 (fine_run o) p s (at_skip_white s K)) as F.
      destruct (run o p s) as [s1|x s1| |]; cbn [fine] in *; try discriminate.
      * intros E. injection E as <-. destruct F as [_ F]. rewrite F in W. discriminate W.
      * destruct F as [_ F]. destruct x.
        -- destruct rs; [|discriminate]. intros E. injection E as <-. rewrite (Z _ F) in W. discriminate W.
        -- intros E. injection E as <-. rewrite (Z _ F) in W. discriminate W.
Qed.

Lemma reached_paused o rs l : forall s, top_ok s -> reached o s (while_paused o rs l s).
Proof.
  induction l as [|p l IH]; intros s T; cbn [while_paused]; destruct (paused s); try apply r_refl; try exact I.
  apply reached_bind; [apply fill_reached, T|]. intros s' E. apply IH.
  pose proof (fill_reached o rs p s T) as R. rewrite E in R. eapply top_ok_reach; eassumption.
Qed.

Lemma reached_extra o rs l : forall s, top_ok s -> reached o s (extra o rs l s).
Proof.
  induction l as [|[p c] l IH]; intros s T; cbn [extra]; [apply r_refl|].
  pose proof (fill_reached o rs p s T) as R.
  apply reached_bind; [exact R|]. intros s1 E. rewrite E in R. cbn [reached] in R.
  pose proof (top_ok_reach _ _ _ R T) as T1.
  assert (Q : reached o s1 match c with
              | Some bs => if at_skip s1 then Ret s1 else loop o bs (take s1)
              | None => Ret s1 end).
  { destruct c as [bs|]; [|apply r_refl]. destruct (at_skip s1) eqn:K; [apply r_refl|].
    apply reached_consume, not_skip_white, K. }
  apply reached_bind; [exact Q|]. intros s2 E2. rewrite E2 in Q. apply IH.
  eapply top_ok_reach; eassumption.
Qed.

Lemma reached_ret o s r s' : reached o s r -> r = Ret s' -> reach o s s'.
Proof. intros A ->. exact A. Qed.

(** The state right after nextToken removed the token returned before. *)
Definition after_pop t r s :=
  set_popped (popped s ++ [t]) (set_bufs (inskip s) r (skiptb s) (pretb s) (skippretb s) s).

Lemma reached_next o rs c s t r :
  top_ok s -> tb s = t :: r -> reached o (after_pop t r s) (nextToken o rs c s).
Proof.
  intros T B. unfold nextToken. rewrite B.
  fold (after_pop t r s). set (s0 := after_pop t r s).
  assert (T0 : top_ok s0) by exact T.
  assert (F1 : reached o s0 (if is_nil (tb s0) then fillTokenBuffer o rs (c_fill c) s0 else Ret s0)).
  { destruct (is_nil (tb s0)); [apply fill_reached, T0|apply r_refl]. }
  apply reached_bind; [exact F1|]. intros s1 E1. pose proof (reached_ret _ _ _ _ F1 E1) as R1.
  pose proof (top_ok_reach _ _ _ R1 T0) as T1.
  assert (F2 : reached o s1 (if is_nil (tb s1) then loop o (c_consume c) (take s1) else Ret s1)).
  { destruct (is_nil (tb s1)) eqn:E2; [|apply r_refl].
    apply reached_consume. intros W.
    destruct (is_nil (tb s0)) eqn:E0.
    - eapply fill_white; [exact E1| |exact T0|exact W]. destruct (tb s1); [reflexivity|discriminate E2].
    - injection E1 as <-. rewrite E0 in E2. discriminate E2. }
  apply reached_bind; [exact F2|]. intros s2 E2. pose proof (reached_ret _ _ _ _ F2 E2) as R2.
  pose proof (top_ok_reach _ _ _ R2 T1) as T2.
  pose proof (reached_paused o rs (c_paused c) s2 T2) as F3.
  apply reached_bind; [exact F3|]. intros s3 E3. pose proof (reached_ret _ _ _ _ F3 E3) as R3.
  pose proof (top_ok_reach _ _ _ R3 T2) as T3.
  apply reached_bind; [apply reached_extra, T3|]. intros s4 _.
  destruct (tb s4); [exact I|apply r_refl].
Qed.

(** * Delivered tokens *)
Lemma popped_pushToken ty k x w s : popped (pushToken ty k x w s) = popped s.
Proof. unfold pushToken, set_output. destruct (0 <? guessing s); [reflexivity|]. destruct (inskip s); reflexivity. Qed.
Lemma popped_flush s : popped (flushSkip s) = popped s.
Proof. unfold flushSkip, set_output, set_skip. destruct (inskip s) eqn:E; cbn; rewrite ?E; reflexivity. Qed.
Lemma popped_pushTokenFlush ty k x w s : popped (pushTokenFlush ty k x w s) = popped s.
Proof. unfold pushTokenFlush. destruct (0 <? guessing s); [reflexivity|]. rewrite popped_pushToken. apply popped_flush. Qed.
Lemma popped_pushSkip ty k x w s : popped (pushSkipToken ty k x w s) = popped s.
Proof. unfold pushSkipToken, set_skip. destruct (0 <? guessing s); [reflexivity|]. destruct (inskip s); reflexivity. Qed.
Lemma popped_note_if b f s : popped (note_if b f s) = popped s.
Proof. destruct b; reflexivity. Qed.
Lemma popped_pop_comment s n s' : pop_comment s = Some (n, s') -> popped s' = popped s.
Proof.
  unfold pop_comment. destruct (comments s); [discriminate|]. intros E. injection E as <- <-.
  cbn [popped set_comments]. rewrite !popped_note_if. reflexivity.
Qed.
Lemma popped_end s : popped (endElement s) = popped s.
Proof.
  unfold endElement. rewrite popped_note_if. unfold end_element. destruct (modes s) as [|t r]; [reflexivity|].
  destruct (opened t) as [|[a e] oo]; [reflexivity|].
  destruct (N.eqb _ _); cbn [popped set_modes]; rewrite ?popped_pushToken, ?popped_note_if; reflexivity.
Qed.
Lemma popped_on_top f s s' : on_top f s = Ret s' -> popped s' = popped s.
Proof. unfold on_top. destruct (modes s); [discriminate|]. intros E. injection E as <-. reflexivity. Qed.
Lemma popped_skip_one t s s' : skip_one t s = Ret s' -> popped s' = popped s.
Proof.
  unfold skip_one. destruct (l_type t).
  all: try (intros E; injection E as <-; cbn [popped drop1 set_input set_comments];
            rewrite ?popped_pushSkip; cbn [popped drop1 set_input set_comments];
            rewrite ?popped_pushSkip; reflexivity).
  destruct (pop_comment s) as [[n s1]|] eqn:P; [|discriminate].
  apply popped_pop_comment in P.
  destruct c; try destruct (ends_line _); intros E; injection E as <-;
    cbn [popped drop1 set_input]; rewrite ?popped_pushSkip; cbn [popped drop1 set_input];
    rewrite ?popped_pushSkip; exact P.
Qed.
Lemma popped_complete s : popped (completeSkip s) = popped s.
Proof.
  unfold completeSkip. destruct (pop_comment s) as [[n s1]|] eqn:P; [|reflexivity].
  rewrite popped_pushSkip. eapply popped_pop_comment, P.
Qed.
Lemma popped_nop s s' : nopStreamStart s = Ret s' -> popped s' = popped s.
Proof.
  unfold nopStreamStart. destruct (paused s); [|intros E; injection E as <-; reflexivity].
  destruct (find_tok _ _); [|discriminate]. destruct (rev _); [discriminate|].
  destruct (ttype_eq_dec _ _); intros E; injection E as <-; [|reflexivity].
  cbn [popped resumeStream set_paused]. rewrite popped_note_if. reflexivity.
Qed.

Lemma popped_prim o s s' : prim o s s' -> popped s' = popped s.
Proof.
  intros P. destruct P; try reflexivity.
  - unfold startElement in H. destruct (on_top _ s) eqn:E; cbn [bind] in H; try discriminate H.
    injection H as <-. rewrite popped_note_if, popped_pushTokenFlush. eapply popped_on_top, E.
  - unfold startNoSkipElement in H. destruct (on_top _ s) eqn:E; cbn [bind] in H; try discriminate H.
    injection H as <-. rewrite popped_note_if, popped_pushToken. eapply popped_on_top, E.
  - apply popped_end.
  - apply popped_pushTokenFlush.
  - eapply popped_on_top, H.
  - eapply popped_on_top, H.
  - eapply popped_on_top, H.
  - unfold dupMode in H. destruct (modes s); [discriminate H|]. injection H as <-. reflexivity.
  - unfold insertModeAfter in H. destruct (cut _ _) as [[? ?]|]; [|discriminate H].
    injection H as <-. reflexivity.
  - unfold dupDownOverMode in H. destruct (cut _ _) as [[? [|? ?]]|]; try discriminate H.
    injection H as <-. reflexivity.
  - apply popped_flush.
  - unfold take. destruct (input s) as [|t r].
    + rewrite popped_pushTokenFlush, popped_note_if. reflexivity.
    + destruct (is_skip_tok _ _); cbn [popped drop1 set_input];
        rewrite ?popped_pushSkip, ?popped_pushTokenFlush; reflexivity.
  - eapply popped_skip_one; eassumption.
  - apply popped_complete.
  - apply popped_nop, H.
  - unfold setType in H. destruct (find_tok _ _); [|discriminate H].
    destruct (has_entry _ _); [|discriminate H]. injection H as <-. reflexivity.
Qed.

Lemma popped_reach o s s' : reach o s s' -> popped s' = popped s.
Proof.
  induction 1; try congruence; try (cbn in *; congruence).
  - eapply popped_prim; eassumption.
  - unfold leave_region. rewrite !popped_note_if. exact IHreach.
Qed.

(** Reachable from construction: pops and steps. *)
Inductive travels (o : popts) : ps -> ps -> Prop :=
| t_refl s : travels o s s
| t_step s1 s2 s3 : travels o s1 s2 -> reach o s2 s3 -> travels o s1 s3
| t_pop s1 s2 t r : travels o s1 s2 -> tb s2 = t :: r -> travels o s1 (after_pop t r s2).

Lemma travels_trans o s1 s2 s3 : travels o s1 s2 -> travels o s2 s3 -> travels o s1 s3.
Proof.
  intros A B. induction B; [exact A| |].
  - eapply t_step; [apply IHB, A|assumption].
  - eapply t_pop; [apply IHB, A|assumption].
Qed.

(** The tokens delivered by [pull] are the front of everything pushed. *)
Lemma pull_front o rs : forall cs s t0 r0 l e s',
  top_ok s -> tb s = t0 :: r0 -> pull o rs cs s = (l, e, s') ->
  travels o s s' /\ top_ok s' /\
  exists b, everything s' = (popped s ++ t0 :: l) ++ b /\
            (e = AtEof -> exists x b', b = x :: b' /\ o_type x = TEof).
Proof.
  induction cs as [|c cs IH]; intros s t0 r0 l e s' T B E; cbn [pull] in E.
  - injection E as <- <- <-. split; [apply t_refl|]. split; [exact T|].
    exists (r0 ++ skiptb s ++ pretb s ++ skippretb s). split; [|discriminate].
    unfold everything, buffered. rewrite B, <- app_assoc. reflexivity.
  - pose proof (reached_next o rs c s t0 r0 T B) as R.
    destruct (nextToken o rs c s) as [s1|x s1| |] eqn:N.
    + cbn [reached] in R.
      pose proof (popped_reach _ _ _ R) as P1. cbn [popped after_pop set_popped] in P1.
      assert (T1 : top_ok s1) by (eapply top_ok_reach; [exact R|exact T]).
      assert (V1 : travels o s s1) by (eapply t_step; [eapply t_pop; [apply t_refl|exact B]|exact R]).
      destruct (tb s1) as [|t1 r1] eqn:B1.
      { injection E as <- <- <-. split; [exact V1|]. split; [exact T1|].
        exists (buffered s1). split; [|discriminate]. unfold everything. rewrite P1. reflexivity. }
      destruct (ttype_eq_dec (o_type t1) TEof) as [Q|Q].
      { injection E as <- <- <-. split; [exact V1|]. split; [exact T1|].
        exists (buffered s1). split; [unfold everything; rewrite P1; reflexivity|]. intros _.
        exists t1, (r1 ++ skiptb s1 ++ pretb s1 ++ skippretb s1). split; [|exact Q].
        unfold buffered. rewrite B1. reflexivity. }
      destruct (pull o rs cs s1) as [[l1 e1] s2] eqn:U. injection E as <- <- <-.
      destruct (IH _ _ _ _ _ _ T1 B1 U) as [V2 [T2 [b [E2 F2]]]].
      split; [eapply travels_trans; eassumption|]. split; [exact T2|].
      exists b. split; [|exact F2]. rewrite E2, P1. rewrite <- !app_assoc. reflexivity.
    + cbn [reached] in R. injection E as <- <- <-.
      pose proof (popped_reach _ _ _ R) as P1. cbn [popped after_pop set_popped] in P1.
      split; [eapply t_step; [eapply t_pop; [apply t_refl|exact B]|exact R]|].
      split; [eapply top_ok_reach; [exact R|exact T]|].
      exists (buffered s1). split; [|discriminate]. unfold everything. rewrite P1. reflexivity.
    + injection E as <- <- <-. split; [apply t_refl|]. split; [exact T|].
      exists (r0 ++ skiptb s ++ pretb s ++ skippretb s). split; [|discriminate].
      unfold everything, buffered. rewrite B, <- app_assoc. reflexivity.
    + injection E as <- <- <-. split; [apply t_refl|]. split; [exact T|].
      exists (r0 ++ skiptb s ++ pretb s ++ skippretb s). split; [|discriminate].
      unfold everything, buffered. rewrite B, <- app_assoc. reflexivity.
Qed.
