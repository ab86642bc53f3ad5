(** Everything a program can do is a sequence of primitive steps, look-aheads and nested
    preprocessor handling. *)
From Verif Require Import Base Parser_Model Parser_Spec.

(** The next token is not always-skipped white space. *)
Definition at_white s := match input s with [] => false | t :: _ => is_white (l_type t) end.

Inductive prim (o : popts) : ps -> ps -> Prop :=
| p_start e s s' : startElement e s = Ret s' -> prim o s s'
| p_start_ns e s s' : startNoSkipElement e s = Ret s' -> prim o s s'
| p_end s : 0 < top_open s -> prim o s (endElement s)
| p_pop t r s : modes s = t :: r -> opened t = [] -> prim o s (set_modes r s)
| p_empty e s : prim o s (emptyElement e s)
| p_new m s : prim o s (startNewMode m s)
| p_set m s s' : on_top (state_set m) s = Ret s' -> prim o s s'
| p_clear m s s' : on_top (state_clear m) s = Ret s' -> prim o s s'
| p_add e s s' : addElement e s = Ret s' -> prim o s s'
| p_dup l s s' : dupMode l s = Ret s' -> prim o s s'
| p_insert m n l s s' : insertModeAfter m n l s = Ret s' -> prim o s s'
| p_dupdown m s s' : dupDownOverMode m s = Ret s' -> prim o s s'
| p_flush s : prim o s (flushSkip s)
| p_take s : (at_white s = true -> 0 < guessing s \/ In Fmacro (log s)) -> prim o s (take s)
| p_skip t r s s' : input s = t :: r -> is_skip_tok (inskip s) (l_type t) = true ->
    skip_one t s = Ret s' -> prim o s s'
| p_complete s : prim o s (completeSkip s)
| p_pause x s : prim o s (set_paused x s)
| p_nop s s' : nopStreamStart s = Ret s' -> prim o s s'
| p_type n e s s' : setType n e s = Ret s' -> prim o s s'.

Inductive reach (o : popts) : ps -> ps -> Prop :=
| r_refl s : reach o s s
| r_trans s1 s2 s3 : reach o s1 s2 -> reach o s2 s3 -> reach o s1 s3
| r_prim s s' : prim o s s' -> reach o s s'
| r_guess s s' : reach o (mark s) s' -> reach o s (rewind s s')
| r_guess_exn s s' : reach o (mark s) s' -> reach o s (note Fguess s')
| r_region g s s' : at_region o s = Some g -> reach o (enter s) s' ->
    reach o s (leave_region s s')
| r_macro s s' : at_region o s = Some Rmacro -> reach o (enter s) s' -> reach o s (note Fmacro s').

Definition reached (o : popts) (s : ps) (r : res) : Prop :=
  match r with Ret s' => reach o s s' | Exn _ s' => reach o s s' | _ => True end.

Lemma reached_bind o s r f :
  reached o s r -> (forall s', r = Ret s' -> reached o s' (f s')) -> reached o s (bind r f).
Proof.
  intros A B. destruct r as [s'|x s'| |]; cbn [bind]; try exact A.
  specialize (B s' eq_refl). cbn [reached] in A.
  destruct (f s'); cbn [reached] in *; try exact I; eapply r_trans; eassumption.
Qed.

Lemma modes_note_if b f s : modes (note_if b f s) = modes s.
Proof. destruct b; reflexivity. Qed.

(** Mode ends *)
Lemma top_open_end s : 0 < top_open s -> top_open (endElement s) = pred (top_open s).
Proof.
  unfold top_open, endElement. rewrite modes_note_if. unfold end_element. destruct (modes s) as [|t r] eqn:M; [lia|].
  destruct (opened t) as [|[a e] oo] eqn:O; cbn [length]; [lia|]. intros _.
  destruct (N.eqb _ _); cbn; rewrite ?O; reflexivity.
Qed.

Lemma iter_S {A} (f : A -> A) n x : Nat.iter (S n) f x = Nat.iter n f (f x).
Proof. induction n as [|n IH]; [reflexivity|]. change (f (Nat.iter (S n) f x) = f (Nat.iter n f (f x))). rewrite IH. reflexivity. Qed.

Lemma reach_ends o n : forall s, n <= top_open s -> reach o s (Nat.iter n endElement s).
Proof.
  induction n as [|n IH]; intros s H; [apply r_refl|].
  rewrite iter_S. eapply r_trans; [apply r_prim, p_end; lia|].
  apply IH. rewrite top_open_end by lia. lia.
Qed.

Lemma top_open_ends n : forall s, n <= top_open s -> top_open (Nat.iter n endElement s) = top_open s - n.
Proof.
  induction n as [|n IH]; intros s H; [cbn; lia|].
  rewrite iter_S, IH by (rewrite top_open_end by lia; lia). rewrite top_open_end by lia. lia.
Qed.

Lemma modes_end s : exists t, modes (endElement s) = match modes s with [] => [] | _ :: r => t :: r end.
Proof.
  unfold endElement. rewrite modes_note_if. unfold end_element.
  destruct (modes s) as [|t r] eqn:M; [exists (MState 0 0 0 []); exact M|].
  destruct (opened t) as [|[a e] oo] eqn:O; [exists t; exact M|].
  exists (with_opened oo t). destruct (N.eqb _ _); reflexivity.
Qed.

Lemma modes_ends n : forall s, exists t,
  modes (Nat.iter n endElement s) = match modes s with [] => [] | _ :: r => t :: r end.
Proof.
  induction n as [|n IH]; intros s.
  - cbn. destruct (modes s) as [|t r]; [exists (MState 0 0 0 [])|exists t]; reflexivity.
  - rewrite iter_S. destruct (modes_end s) as [t E]. destruct (IH (endElement s)) as [t' E'].
    rewrite E in E'. destruct (modes s); eauto.
Qed.

Lemma tl_popMode s : modes (popMode s) = tl (modes s).
Proof.
  unfold popMode. cbn [modes set_modes].
  destruct (modes_ends (top_open s) s) as [t E]. rewrite E. destruct (modes s); reflexivity.
Qed.

Lemma reach_popMode o s : 0 < size s -> reach o s (popMode s).
Proof.
  intros H. unfold popMode.
  eapply r_trans; [apply reach_ends; reflexivity|].
  destruct (modes_ends (top_open s) s) as [t E].
  pose proof (top_open_ends (top_open s) s (le_n _)) as T.
  set (s1 := Nat.iter (top_open s) endElement s) in *.
  unfold size in H. destruct (modes s) as [|t0 r] eqn:M; [cbn in H; lia|].
  unfold top_open in T at 1. rewrite E in T.
  rewrite E. cbn [tl]. apply r_prim. eapply p_pop; [exact E|].
  destruct (opened t); [reflexivity|cbn in T; lia].
Qed.

Lemma reach_while o n c : forall s, reach o s (end_while n c s).
Proof.
  induction n as [|n IH]; intros s; cbn [end_while]; [apply r_refl|].
  destruct (1 <? size s) eqn:S1; cbn [andb]; [|apply r_refl].
  destruct (c s); [|apply r_refl].
  apply Nat.ltb_lt in S1. eapply r_trans; [apply reach_popMode; lia|apply IH].
Qed.

Lemma reached_endMode o s : reached o s (endMode s).
Proof.
  unfold endMode. destruct (size s <=? 1) eqn:E; [apply r_refl|].
  apply Nat.leb_gt in E. cbn [reached]. apply reach_popMode. lia.
Qed.

Lemma reached_nop o s : reached o s (nopStreamStart s).
Proof.
  destruct (nopStreamStart s) as [s'|x s'| |] eqn:E; cbn [reached]; try exact I.
  - apply r_prim, p_nop, E.
  - unfold nopStreamStart in E. destruct (paused s); [|discriminate E].
    destruct (find_tok _ _); [|discriminate E]. destruct (rev _); [discriminate E|].
    destruct (ttype_eq_dec _ _); discriminate E.
Qed.

Lemma reached_endAll o s : reached o s (endAllModes o s).
Proof.
  unfold endAllModes.
  set (s0 := if (1 <? size s) && o_debug o then emptyElement Eerror s else s).
  assert (A : reach o s s0) by (unfold s0; destruct (_ && _); [apply r_prim, p_empty|apply r_refl]).
  assert (B : forall r, reached o s0 r -> reached o s r).
  { intros r R. destruct r; cbn [reached] in *; try exact I; eapply r_trans; eassumption. }
  apply B. apply reached_bind.
  - destruct (paused s0); [|apply r_refl].
    assert (C : reach o s0 (end_to_one s0)) by (apply reach_while).
    pose proof (reached_nop o (end_to_one s0)) as D.
    destruct (nopStreamStart (end_to_one s0)); cbn [reached] in *; try exact I;
      eapply r_trans; eassumption.
  - intros s1 _. cbn [reached].
    eapply r_trans; [apply r_prim, p_pause|]. fold (resumeStream s1).
    eapply r_trans; [apply (reach_while o (size (resumeStream s1)) (fun _ => true))|].
    fold (end_to_one (resumeStream s1)). set (s2 := end_to_one (resumeStream s1)).
    eapply r_trans; [apply r_prim, p_complete|].
    eapply r_trans; [apply r_prim, p_flush|].
    destruct (size _ =? 1) eqn:Z; [|apply r_refl].
    apply Nat.eqb_eq in Z. apply reach_popMode. lia.
Qed.

Lemma reached_on_top o f s :
  (forall s', on_top f s = Ret s' -> prim o s s') -> reached o s (on_top f s).
Proof.
  intros H. destruct (on_top f s) eqn:E; cbn [reached]; try exact I.
  - apply r_prim, H, eq_refl.
  - unfold on_top in E. destruct (modes s); inversion E; subst. apply r_refl.
Qed.

Lemma reached_act o a s : reached o s (act_step o a s).
Proof.
  destruct a; cbn [act_step].
  - destruct (startElement e s) eqn:E; cbn [reached]; try exact I; [apply r_prim; eapply p_start, E|].
    unfold startElement, on_top in E. destruct (modes s); inversion E; subst; apply r_refl.
  - destruct (startNoSkipElement e s) eqn:E; cbn [reached]; try exact I;
      [apply r_prim; eapply p_start_ns, E|].
    unfold startNoSkipElement, on_top in E. destruct (modes s); inversion E; subst; apply r_refl.
  - apply r_prim, p_empty.
  - apply reached_on_top. intros s' E. eapply p_add, E.
  - apply r_prim, p_flush.
  - apply r_prim, p_new.
  - apply reached_on_top. intros s' E. eapply p_set, E.
  - apply reached_on_top. intros s' E. eapply p_clear, E.
  - apply reached_endMode.
  - unfold endDownToMode. destruct (inTransparentMode m s); [apply reach_while|apply r_refl].
  - apply (reach_while o (size s)).
  - unfold endDownOverMode. destruct (inTransparentMode m s); [|apply r_refl].
    set (s1 := end_while _ _ _).
    assert (A : reach o s s1) by apply reach_while.
    pose proof (reached_endMode o s1) as B.
    destruct (endMode s1); cbn [reached] in *; try exact I; eapply r_trans; eassumption.
  - apply (reach_while o (size s)).
  - destruct (dupMode l s) eqn:E; cbn [reached]; try exact I; [apply r_prim; eapply p_dup, E|].
    unfold dupMode in E. destruct (modes s); discriminate E.
  - destruct (insertModeAfter m n l s) eqn:E; cbn [reached]; try exact I;
      [apply r_prim; eapply p_insert, E|].
    unfold insertModeAfter in E. destruct (cut _ _) as [[? ?]|]; discriminate E.
  - destruct (dupDownOverMode m s) eqn:E; cbn [reached]; try exact I;
      [apply r_prim; eapply p_dupdown, E|].
    unfold dupDownOverMode in E. destruct (cut _ _) as [[? [|? ?]]|]; discriminate E.
  - apply reached_endAll.
  - unfold pauseStream. destruct (rev _); [exact I|]. apply r_prim, p_pause.
  - apply r_prim, p_pause.
  - apply reached_nop.
  - destruct (setType n e s) eqn:E; cbn [reached]; try exact I; [apply r_prim; eapply p_type, E|].
    unfold setType in E. destruct (find_tok _ _); [|discriminate E].
    destruct (has_entry _ _); discriminate E.
Qed.

Lemma reached_end_modes o n : forall s, reached o s (end_modes n s).
Proof.
  induction n as [|n IH]; intros s; cbn [end_modes]; [apply r_refl|].
  apply reached_bind; [apply reached_endMode|]. intros s' _. apply IH.
Qed.

Lemma reached_enter_scope o c s : reached o s (enter_scope c s).
Proof. destruct c; cbn; try apply r_refl; destruct (guessing s); cbn; try apply r_refl; destruct (modes s); apply r_refl. Qed.

Lemma reached_leave_scope o c s0 s : reached o s (leave_scope c s0 s).
Proof.
  unfold leave_scope. destruct (0 <? guessing s); [apply r_refl|].
  destruct c.
  - destruct (0 <? guessing s0); [exact I|].
    pose proof (reached_end_modes o (size s - size s0) s) as H.
    destruct (end_modes _ s); cbn [reached] in *; try exact I; exact H.
  - destruct (0 <? guessing s0); [exact I|]. destruct (modes s) eqn:M; [exact I|].
    cbn [reached]. apply reach_ends. lia.
  - destruct (modes s) eqn:M; [exact I|]. cbn [reached]. apply reach_ends. lia.
Qed.

Lemma input_pushSkip ty k x w s : input (pushSkipToken ty k x w s) = input s.
Proof. unfold pushSkipToken, set_skip. destruct (0 <? guessing s); [reflexivity|]. destruct (inskip s); reflexivity. Qed.
Lemma input_pushToken ty k x w s : input (pushToken ty k x w s) = input s.
Proof. unfold pushToken, set_output. destruct (0 <? guessing s); [reflexivity|]. destruct (inskip s); reflexivity. Qed.
Lemma input_flush s : input (flushSkip s) = input s.
Proof. unfold flushSkip, set_output, set_skip. destruct (inskip s) eqn:E; cbn; rewrite ?E; reflexivity. Qed.
Lemma input_pushTokenFlush ty k x w s : input (pushTokenFlush ty k x w s) = input s.
Proof.
  unfold pushTokenFlush. destruct (0 <? guessing s); [reflexivity|].
  rewrite input_pushToken. apply input_flush.
Qed.
Lemma input_note_if b f s : input (note_if b f s) = input s.
Proof. destruct b; reflexivity. Qed.
Lemma input_pop_comment s n s' : pop_comment s = Some (n, s') -> input s' = input s.
Proof.
  unfold pop_comment. destruct (comments s); [discriminate|]. intros E. injection E as <- <-.
  cbn [input set_comments]. rewrite !input_note_if. reflexivity.
Qed.

Lemma skip_one_input t r s s' : input s = t :: r -> skip_one t s = Ret s' -> input s' = r.
Proof.
  intros I. unfold skip_one.
  assert (J : forall s1, input s1 = input s -> tl (input s1) = r) by (intros s1 ->; rewrite I; reflexivity).
  destruct (l_type t) as [n| | | |c|c| | | |n].
  all: try (intros E; injection E as <-; cbn [input drop1 set_input set_comments];
            rewrite ?input_pushSkip; cbn [input drop1 set_input set_comments];
            rewrite ?input_pushSkip, ?I; reflexivity).
  destruct (pop_comment s) as [[n s1]|] eqn:P; [|discriminate].
  pose proof (input_pop_comment _ _ _ P) as Q.
  destruct c; try destruct (ends_line (l_text t)); intros E; injection E as <-;
    cbn [input drop1 set_input]; rewrite ?input_pushSkip; cbn [input drop1 set_input];
    rewrite ?input_pushSkip, ?Q, ?I; reflexivity.
Qed.

Lemma skip_one_no_exn t s x s' : skip_one t s <> Exn x s'.
Proof.
  unfold skip_one. destruct (l_type t); try discriminate.
  destruct (pop_comment s) as [[n s1]|]; [|discriminate].
  destruct c; try destruct (ends_line _); discriminate.
Qed.

Lemma reached_skip_all o l : forall s, input s = l -> reached o s (skip_all l s).
Proof.
  induction l as [|t r IH]; intros s E; cbn [skip_all]; [apply r_refl|].
  destruct (is_skip_tok (inskip s) (l_type t)) eqn:K; [|apply r_refl].
  apply reached_bind.
  - destruct (skip_one t s) as [s1|x s1| |] eqn:S1; cbn [reached]; try exact I.
    + apply r_prim. eapply p_skip; eassumption.
    + exfalso. eapply skip_one_no_exn, S1.
  - intros s' S1. apply IH. eapply skip_one_input; eassumption.
Qed.

Lemma skip_all_done l : forall s s', input s = l -> skip_all l s = Ret s' -> at_skip s' = false.
Proof.
  induction l as [|t r IH]; intros s s' E; cbn [skip_all].
  - intros F. injection F as <-. unfold at_skip. rewrite E. reflexivity.
  - destruct (is_skip_tok (inskip s) (l_type t)) eqn:K.
    + destruct (skip_one t s) as [s1|x s1| |] eqn:S1; cbn [bind]; try discriminate.
      apply IH. eapply skip_one_input; eassumption.
    + intros F. injection F as <-. unfold at_skip. rewrite E. exact K.
Qed.

Lemma at_skip_white s : at_skip s = false -> at_white s = false.
Proof.
  unfold at_skip, at_white. destruct (input s) as [|t r]; [reflexivity|].
  unfold is_skip_tok. intros H. apply orb_false_iff in H. apply H.
Qed.

Lemma at_region_white o s g : at_region o s = Some g -> at_white s = false.
Proof.
  unfold at_region, at_white. destruct (inskip s); [discriminate|].
  destruct (input s) as [|t r]; [discriminate|]. destruct (l_type t); try discriminate; reflexivity.
Qed.

(** The same program, seen from the next token being visible to the grammar. *)
Definition fine (o : popts) (s : ps) (r : res) : Prop :=
  match r with
  | Ret s' => reach o s s' /\ at_white s' = false
  | Exn _ s' => reach o s s' /\ at_white s' = false
  | _ => True
  end.

Lemma fine_bind o s r f :
  fine o s r -> (forall s', r = Ret s' -> at_white s' = false -> fine o s' (f s')) ->
  fine o s (bind r f).
Proof.
  intros A B. destruct r as [s'|x s'| |]; cbn [bind]; try exact A.
  destruct A as [A W]. specialize (B s' eq_refl W).
  destruct (f s') as [s2|x s2| |]; cbn [fine] in *; try exact I; destruct B as [B V]; split;
    try exact V; eapply r_trans; eassumption.
Qed.

Lemma fine_trans o s s' r : reach o s s' -> fine o s' r -> fine o s r.
Proof.
  intros A B. destruct r; cbn [fine] in *; try exact I; destruct B as [B W]; split;
    try exact W; eapply r_trans; eassumption.
Qed.

(** Actions do not read input. *)
Definition same_input (s : ps) (r : res) : Prop :=
  match r with Ret s' => input s' = input s | Exn _ s' => input s' = input s | _ => True end.

Lemma input_end s : input (endElement s) = input s.
Proof.
  unfold endElement. rewrite input_note_if. unfold end_element.
  destruct (modes s) as [|t r]; [reflexivity|].
  destruct (opened t) as [|[a e] oo]; [reflexivity|].
  destruct (N.eqb _ _); cbn [input set_modes]; rewrite ?input_pushToken, ?input_note_if; reflexivity.
Qed.
Lemma input_ends n : forall s, input (Nat.iter n endElement s) = input s.
Proof. induction n as [|n IH]; intros s; [reflexivity|]. rewrite iter_S, IH. apply input_end. Qed.
Lemma input_popMode s : input (popMode s) = input s.
Proof. unfold popMode. cbn [input set_modes]. apply input_ends. Qed.
Lemma input_while n c : forall s, input (end_while n c s) = input s.
Proof.
  induction n as [|n IH]; intros s; cbn [end_while]; [reflexivity|].
  destruct (_ && _); [|reflexivity]. rewrite IH. apply input_popMode.
Qed.
Lemma input_nop s : same_input s (nopStreamStart s).
Proof.
  unfold nopStreamStart. destruct (paused s); [|reflexivity].
  destruct (find_tok _ _); [|exact I]. destruct (rev _); [exact I|].
  destruct (ttype_eq_dec _ _); [|reflexivity]. cbn [same_input input resumeStream set_paused].
  rewrite input_note_if. reflexivity.
Qed.
Lemma input_complete s : input (completeSkip s) = input s.
Proof.
  unfold completeSkip. destruct (pop_comment s) as [[n s1]|] eqn:P; [|reflexivity].
  rewrite input_pushSkip. eapply input_pop_comment, P.
Qed.
Lemma input_endMode s : same_input s (endMode s).
Proof. unfold endMode. destruct (_ <=? _); [reflexivity|apply input_popMode]. Qed.
Lemma input_on_top f s : same_input s (on_top f s).
Proof. unfold on_top. destruct (modes s); reflexivity. Qed.

Lemma act_input o a s : same_input s (act_step o a s).
Proof.
  destruct a; cbn [act_step]; try reflexivity; try apply input_on_top; try apply input_while.
  - unfold startElement, on_top. destruct (modes s); [reflexivity|].
    cbn [bind same_input]. rewrite input_note_if, input_pushTokenFlush. reflexivity.
  - unfold startNoSkipElement, on_top. destruct (modes s); [reflexivity|].
    cbn [bind same_input]. rewrite input_note_if, input_pushToken. reflexivity.
  - apply input_pushTokenFlush.
  - apply input_flush.
  - apply input_endMode.
  - unfold endDownToMode. cbn [same_input]. destruct (inTransparentMode m s); [apply input_while|reflexivity].
  - unfold endDownOverMode. destruct (inTransparentMode m s); [|reflexivity].
    pose proof (input_endMode (end_while (size s) (fun s => negb (inMode m s)) s)) as H.
    destruct (endMode _); cbn [same_input] in *; try exact I; rewrite H; apply input_while.
  - unfold dupMode. destruct (modes s); [exact I|reflexivity].
  - unfold insertModeAfter. destruct (cut _ _) as [[? ?]|]; [reflexivity|exact I].
  - unfold dupDownOverMode. destruct (cut _ _) as [[? [|? ?]]|]; try exact I. reflexivity.
  - unfold endAllModes.
    set (s0 := if (1 <? size s) && o_debug o then emptyElement Eerror s else s).
    assert (A : input s0 = input s) by (unfold s0; destruct (_ && _); [apply input_pushTokenFlush|reflexivity]).
    assert (T : forall s1, input s1 = input s ->
      input (let s2 := end_to_one (resumeStream s1) in
             let s3 := flushSkip (completeSkip s2) in
             if size s3 =? 1 then popMode s3 else s3) = input s).
    { intros s1 E. cbv zeta. destruct (_ =? 1); rewrite ?input_popMode, input_flush, input_complete;
        unfold end_to_one; rewrite input_while; exact E. }
    destruct (paused s0).
    + pose proof (input_nop (end_to_one s0)) as N.
      assert (B : input (end_to_one s0) = input s) by (unfold end_to_one; rewrite input_while; exact A).
      destruct (nopStreamStart (end_to_one s0)); cbn [bind same_input] in *; try exact I.
      * apply T. congruence.
      * congruence.
    + cbn [bind same_input]. apply T, A.
  - unfold pauseStream. destruct (rev _); [exact I|reflexivity].
  - apply input_nop.
  - unfold setType. destruct (find_tok _ _); [|exact I]. destruct (has_entry _ _); [reflexivity|exact I].
Qed.

Lemma white_input s s' : input s' = input s -> at_white s' = at_white s.
Proof. unfold at_white. intros ->. reflexivity. Qed.

Lemma fine_act o a s : at_white s = false -> fine o s (act_step o a s).
Proof.
  intros W. pose proof (reached_act o a s) as A. pose proof (act_input o a s) as B.
  destruct (act_step o a s); cbn [fine reached same_input] in *; try exact I; split; try exact A;
    rewrite (white_input _ _ B); exact W.
Qed.

Lemma end_modes_input n : forall s, same_input s (end_modes n s).
Proof.
  induction n as [|n IH]; intros s; cbn [end_modes]; [reflexivity|].
  pose proof (input_endMode s) as A. destruct (endMode s) as [s1|x s1| |]; cbn [bind same_input] in *;
    try exact I; try exact A.
  specialize (IH s1). destruct (end_modes n s1); cbn [same_input] in *; try exact I; congruence.
Qed.

Lemma fine_leave_scope o c s0 s : at_white s = false -> fine o s (leave_scope c s0 s).
Proof.
  intros W. pose proof (reached_leave_scope o c s0 s) as A.
  assert (B : same_input s (leave_scope c s0 s)).
  { unfold leave_scope. destruct (0 <? guessing s); [reflexivity|].
    destruct c.
    - destruct (0 <? guessing s0); [exact I|].
      pose proof (end_modes_input (size s - size s0) s) as E.
      destruct (end_modes _ s); cbn [same_input] in *; try exact I; exact E.
    - destruct (0 <? guessing s0); [exact I|]. destruct (modes s); [exact I|]. apply input_ends.
    - destruct (modes s); [exact I|]. apply input_ends. }
  destruct (leave_scope c s0 s); cbn [fine reached same_input] in *; try exact I; split; try exact A;
    rewrite (white_input _ _ B); exact W.
Qed.

Lemma fine_enter_scope o c s : at_white s = false -> fine o s (enter_scope c s).
Proof.
  intros W. assert (E : enter_scope c s = Ret s \/ enter_scope c s = Exn Fault s).
  { unfold enter_scope. destruct c; auto. destruct (guessing s); auto. destruct (modes s); auto. }
  destruct E as [-> | ->]; split; try apply r_refl; exact W.
Qed.

Lemma input_leave_region n s : input (leave_region n s) = input s.
Proof. unfold leave_region. rewrite !input_note_if. reflexivity. Qed.

Lemma fine_region o g s r : at_region o s = Some g -> fine o (enter s) r -> fine o s (run_region g s r).
Proof.
  intros G F. destruct r as [s'|x s'| |]; cbn [run_region fine] in *; try (destruct g; exact I).
  - destruct F as [F W]. split; [eapply r_region; eassumption|].
    rewrite (white_input s'); [exact W|apply input_leave_region].
  - destruct F as [F W]. destruct g; cbn [fine].
    + split; [eapply r_region; eassumption|]. rewrite (white_input s'); [exact W|apply input_leave_region].
    + split; [eapply r_macro; eassumption|]. rewrite (white_input s'); [exact W|reflexivity].
    + split; [eapply r_region; eassumption|]. rewrite (white_input s'); [exact W|apply input_leave_region].
Qed.

Scheme prog_ind2 := Induction for prog Sort Prop
with progs_ind2 := Induction for progs Sort Prop.
Combined Scheme prog_progs_ind from prog_ind2, progs_ind2.

Lemma loop_eq o bs s :
  loop o bs s =
  bind (skip_all (input s) s) (fun s1 =>
    match at_region o s1 with
    | None => Ret s1
    | Some g =>
        match bs with
        | Bnil => Stuck
        | Bcons b bs' => bind (run_region g s1 (run o b (enter s1))) (loop o bs')
        end
    end).
Proof. destruct bs; reflexivity. Qed.

Lemma fine_run o :
  (forall p s, at_white s = false -> fine o s (run o p s)) /\
  (forall bs s, fine o s (loop o bs s)).
Proof.
  apply prog_progs_ind.
  - intros s W. split; [apply r_refl|exact W].
  - intros x s W. split; [apply r_refl|exact W].
  - intros a k IH s W. cbn [run]. apply fine_bind; [apply fine_act, W|]. intros s' _ W'. apply IH, W'.
  - intros bs IHb k IH s W. cbn [run]. apply fine_bind.
    + eapply fine_trans; [apply r_prim, p_take; rewrite W; discriminate|]. apply IHb.
    + intros s' _ W'. apply IH, W'.
  - intros c b IHb k IH s W. cbn [run].
    specialize (IHb (mark s) W). destruct (run o b (mark s)) as [s'|x s'| |]; cbn [fine] in IHb; try exact I.
    + destruct IHb as [R _]. eapply fine_trans; [apply r_guess, R|]. apply IH. exact W.
    + destruct IHb as [R V]. destruct (stops c x).
      * eapply fine_trans; [apply r_guess, R|]. apply IH. exact W.
      * split; [apply r_guess_exn, R|exact V].
  - intros c b IHb k IH s W. cbn [run]. apply fine_bind; [apply fine_enter_scope, W|].
    intros s0 _ W0. specialize (IHb s0 W0).
    destruct (run o b s0) as [s'|x s'| |]; cbn [fine] in IHb; try exact I; destruct IHb as [R V].
    + eapply fine_trans; [exact R|]. apply fine_bind; [apply fine_leave_scope, V|].
      intros s2 _ W2. apply IH, W2.
    + pose proof (fine_leave_scope o c s0 s' V) as L.
      destruct (leave_scope c s0 s') as [s2|y s2| |]; cbn [fine] in *; try exact I;
        destruct L as [L V2]; split; try exact V2; eapply r_trans; eassumption.
  - intros c b IHb h IHh k IH s W. cbn [run]. specialize (IHb s W).
    destruct (run o b s) as [s'|x s'| |]; cbn [fine] in IHb; try exact I; destruct IHb as [R V].
    + eapply fine_trans; [exact R|]. apply IH, V.
    + destruct (_ && _).
      * eapply fine_trans; [exact R|]. apply fine_bind; [apply IHh, V|]. intros s2 _ W2. apply IH, W2.
      * split; assumption.
  - intros s. rewrite loop_eq.
    pose proof (reached_skip_all o (input s) s eq_refl) as A.
    destruct (skip_all (input s) s) as [s1|x s1| |] eqn:K; cbn [bind]; try exact I.
    + pose proof (skip_all_done _ _ _ eq_refl K) as D.
      destruct (at_region o s1) eqn:G; [exact I|]. split; [exact A|apply at_skip_white, D].
    + exfalso. clear A. revert s K. assert (Q : forall l s, skip_all l s <> Exn x s1).
      { induction l as [|t r IH]; intros s; cbn [skip_all]; [discriminate|].
        destruct (is_skip_tok _ _); [|discriminate].
        destruct (skip_one t s) as [s2|y s2| |] eqn:S1; cbn [bind]; try discriminate; [apply IH|].
        exfalso. eapply skip_one_no_exn, S1. }
      intros s K. apply (Q _ _ K).
  - intros b IHb bs IHbs s. rewrite loop_eq.
    pose proof (reached_skip_all o (input s) s eq_refl) as A.
    destruct (skip_all (input s) s) as [s1|x s1| |] eqn:K; cbn [bind]; try exact I.
    + pose proof (skip_all_done _ _ _ eq_refl K) as D.
      destruct (at_region o s1) as [g|] eqn:G; [|split; [exact A|apply at_skip_white, D]].
      eapply fine_trans; [exact A|]. apply fine_bind.
      * apply fine_region; [exact G|]. apply IHb. apply (at_region_white o s1 g G).
      * intros s2 _ _. apply IHbs.
    + exfalso. clear A. revert s K. assert (Q : forall l s, skip_all l s <> Exn x s1).
      { induction l as [|t r IH]; intros s; cbn [skip_all]; [discriminate|].
        destruct (is_skip_tok _ _); [|discriminate].
        destruct (skip_one t s) as [s2|y s2| |] eqn:S1; cbn [bind]; try discriminate; [apply IH|].
        exfalso. eapply skip_one_no_exn, S1. }
      intros s K. apply (Q _ _ K).
Qed.
