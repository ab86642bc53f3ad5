(** C10: the mode stack. *)
From Verif Require Import Base Parser_Model Parser_Spec Parser_Proofs Parser_Proofs2 Parser_Proofs3.

Fixpoint supp (l : list mstate) : Prop :=
  match l with
  | [] => True
  | t :: r => (forall b, N.testbit (flags_all t) b = true -> exists u, In u (t :: r) /\ active b u) /\ supp r
  end.
Lemma supp_supported l : supp l <-> supported l.
Proof.
  split.
  - induction l as [|x l IH]; intros H a t r E.
    + destruct a; discriminate E.
    + destruct H as [H1 H2]. destruct a as [|y a]; cbn in E.
      * injection E as -> ->. exact H1.
      * injection E as -> E. exact (IH H2 a t r E).
  - induction l as [|x l IH]; intros H; [exact I|]. split.
    + apply (H [] x l eq_refl).
    + apply IH. intros a t r E. apply (H (x :: a) t r). rewrite E. reflexivity.
Qed.

Lemma supp_tail a l : supp (a ++ l) -> supp l.
Proof. induction a as [|t a IH]; [exact (fun H => H)|]. intros [_ H]. apply IH, H. Qed.
Lemma supp_add y l : supp l ->
  (forall t, In t y -> forall b, N.testbit (flags_all t) b = true -> active b t \/ exists u, In u l /\ active b u) ->
  supp (y ++ l).
Proof.
  induction y as [|t y IH]; intros H Y; [exact H|]. split.
  - intros b T. destruct (Y t (or_introl eq_refl) b T) as [A|[u [A1 A2]]].
    + exists t. split; [left; reflexivity|exact A].
    + exists u. split; [right; apply in_or_app; right; exact A1|exact A2].
  - apply IH; [exact H|]. intros u X. apply Y. right. exact X.
Qed.
Lemma supp_in l t b : supp l -> In t l -> N.testbit (flags_all t) b = true -> exists u, In u l /\ active b u.
Proof.
  intros H I T. apply in_split in I. destruct I as [a [r ->]].
  apply supp_tail in H. destruct H as [H _]. destruct (H b T) as [u [U1 U2]].
  exists u. split; [apply in_or_app; right; exact U1|exact U2].
Qed.

Definition widens (t t' : mstate) : Prop :=
  (forall b, active b t -> active b t') /\
  (forall b, N.testbit (flags_all t') b = true -> N.testbit (flags_all t) b = true \/ active b t').
Lemma widens_set m t : widens t (state_set m t).
Proof.
  unfold widens, active, state_set. cbn. split; intros b; rewrite !N.lor_spec; intros H.
  - rewrite H. reflexivity.
  - destruct (N.testbit (flags_all t) b); [left; reflexivity|right]. cbn in H. rewrite H. apply orb_true_r.
Qed.
Lemma widens_same t t' : flags t' = flags t -> flags_all t' = flags_all t -> widens t t'.
Proof. intros A B. unfold widens, active. rewrite A, B. auto. Qed.
Lemma widens_trans a b c : widens a b -> widens b c -> widens a c.
Proof.
  intros [A1 A2] [B1 B2]. split; [auto|]. intros x H. destruct (B2 x H) as [H'|H']; [|right; exact H'].
  destruct (A2 x H') as [Q|Q]; [left; exact Q|right; apply B1, Q].
Qed.
Lemma in_forall2 {A} (R : A -> A -> Prop) l l' x : Forall2 R l l' -> In x l -> exists y, In y l' /\ R x y.
Proof.
  intros F. induction F as [|a b l l' H F IH]; intros I; [destruct I|]. destruct I as [->|I].
  - exists b. split; [left; reflexivity|exact H].
  - destruct (IH I) as [y [Y1 Y2]]. exists y. split; [right; exact Y1|exact Y2].
Qed.
Lemma supp_widen l l' : Forall2 widens l l' -> supp l -> supp l'.
Proof.
  intros F. induction F as [|t t' l l' [W1 W2] F IH]; intros H; [exact I|]. destruct H as [H1 H2].
  split; [|apply IH, H2]. intros b T. destruct (W2 b T) as [T'|T'].
  - destruct (H1 b T') as [u [[<-|U1] U2]].
    + exists t'. split; [left; reflexivity|apply W1, U2].
    + destruct (in_forall2 _ _ _ u F U1) as [y [Y1 [Y2 _]]]. exists y. split; [right; exact Y1|apply Y2, U2].
  - exists t'. split; [left; reflexivity|exact T'].
Qed.
Lemma forall2_map {A} (R : A -> A -> Prop) f l : (forall x, R x (f x)) -> Forall2 R l (map f l).
Proof. intros H. induction l; constructor; auto. Qed.
Lemma forall2_refl {A} (R : A -> A -> Prop) l : (forall x, R x x) -> Forall2 R l l.
Proof. intros H. induction l; constructor; auto. Qed.
Lemma widens_refl t : widens t t.
Proof. apply widens_same; reflexivity. Qed.

Lemma supp_top t t' r : widens t t' -> supp (t :: r) -> supp (t' :: r).
Proof. intros W. apply supp_widen. constructor; [exact W|]. apply forall2_refl, widens_refl. Qed.

Lemma supp_on_top f s s' : (forall t, widens t (f t)) -> on_top f s = Ret s' -> supp (modes s) -> supp (modes s').
Proof.
  intros W. unfold on_top. destruct (modes s) as [|t r]; [discriminate|]. intros E. injection E as <-.
  cbn [modes set_modes]. apply supp_top, W.
Qed.

Lemma modes_pushToken ty k x w s : modes (pushToken ty k x w s) = modes s.
Proof. unfold pushToken. destruct (0 <? guessing s); [reflexivity|]. unfold set_output. cbn. destruct (inskip s); reflexivity. Qed.
Lemma modes_flush s : modes (flushSkip s) = modes s.
Proof. unfold flushSkip, set_skip, set_output. destruct (inskip s) eqn:E; cbn; rewrite ?E; reflexivity. Qed.
Lemma modes_pushTokenFlush ty k x w s : modes (pushTokenFlush ty k x w s) = modes s.
Proof. unfold pushTokenFlush. destruct (0 <? guessing s); [reflexivity|]. rewrite modes_pushToken. apply modes_flush. Qed.
Lemma modes_pushSkip ty k x w s : modes (pushSkipToken ty k x w s) = modes s.
Proof. unfold pushSkipToken. destruct (0 <? guessing s); [reflexivity|]. unfold set_skip. cbn. destruct (inskip s); reflexivity. Qed.
Lemma modes_pop_comment s n s' : pop_comment s = Some (n, s') -> modes s' = modes s.
Proof.
  unfold pop_comment. destruct (comments s) as [|o r]; [discriminate|]. intros E. injection E as <- <-.
  cbn [modes set_comments]. rewrite !modes_note_if. reflexivity.
Qed.
Lemma modes_skip_one t s s' : skip_one t s = Ret s' -> modes s' = modes s.
Proof.
  unfold skip_one. intros E. destruct (l_type t) as [| | | |c|c| | | |].
  1,2,3: injection E as <-; cbn; rewrite modes_pushSkip; reflexivity.
  - injection E as <-. rewrite modes_pushSkip. cbn. rewrite !modes_pushSkip. reflexivity.
  - injection E as <-. cbn. rewrite !modes_pushSkip. reflexivity.
  - destruct (pop_comment s) as [[n s1]|] eqn:P; [|discriminate E]. apply modes_pop_comment in P.
    destruct c; try destruct (ends_line _); injection E as <-; repeat (cbn; rewrite ?modes_pushSkip); exact P.
  - injection E as <-. cbn. rewrite modes_pushSkip. reflexivity.
  - injection E as <-. cbn. rewrite modes_pushSkip. reflexivity.
  - injection E as <-. cbn. rewrite modes_pushSkip. reflexivity.
  - injection E as <-. cbn. rewrite modes_pushSkip. reflexivity.
Qed.
Lemma modes_take s : modes (take s) = modes s.
Proof.
  unfold take. destruct (input s) as [|t r].
  - rewrite modes_pushTokenFlush, modes_note_if. reflexivity.
  - destruct (is_skip_tok _ _); cbn [modes drop1 set_input]; rewrite ?modes_pushSkip, ?modes_pushTokenFlush; reflexivity.
Qed.
Lemma modes_complete s : modes (completeSkip s) = modes s.
Proof.
  unfold completeSkip. destruct (pop_comment s) as [[n s']|] eqn:P; [|reflexivity].
  rewrite modes_pushSkip. eapply modes_pop_comment, P.
Qed.
Lemma modes_nop s s' : nopStreamStart s = Ret s' -> modes s' = modes s.
Proof.
  unfold nopStreamStart. destruct (paused s); [|intros E; injection E as <-; reflexivity].
  destruct (find_tok _ _); [|discriminate]. destruct (rev _); [discriminate|].
  destruct (ttype_eq_dec _ _); intros E; injection E as <-; [|reflexivity].
  cbn [modes resumeStream set_paused]. rewrite modes_note_if. reflexivity.
Qed.
Lemma modes_end1 s : exists oo, modes (endElement s) = match modes s with [] => [] | t :: r => with_opened oo t :: r end.
Proof.
  unfold endElement. rewrite modes_note_if. unfold end_element.
  destruct (modes s) as [|t r] eqn:M; [exists []; exact M|].
  destruct (opened t) as [|[a e] oo] eqn:O.
  - exists []. rewrite M. destruct t as [f p al op]. cbn in *. subst op. reflexivity.
  - exists oo. destruct (N.eqb _ _); reflexivity.
Qed.

Lemma supp_prim o s s' : prim o s s' -> supp (modes s) -> supp (modes s').
Proof.
  intros P H. destruct P as [e s s' E|e s s' E|s L|t r s E1 E2|e s|m s|m s s' E|m s s' E|e s s' E|l s s' E|m n l s s' E|m s s' E|s|s W
    |t r s s' E1 E2 E|s|x s|s s' E|n e s s' E].
  - unfold startElement in E. destruct (on_top _ s) as [s1| | |] eqn:Q; cbn [bind] in E; try discriminate E.
    injection E as <-. rewrite modes_note_if, modes_pushTokenFlush. revert H. eapply supp_on_top; [|exact Q].
    intros t. apply widens_same; reflexivity.
  - unfold startNoSkipElement in E. destruct (on_top _ s) as [s1| | |] eqn:Q; cbn [bind] in E; try discriminate E.
    injection E as <-. rewrite modes_note_if, modes_pushToken. revert H. eapply supp_on_top; [|exact Q].
    intros t. apply widens_same; reflexivity.
  - destruct (modes_end1 s) as [oo E]. rewrite E. destruct (modes s) as [|t r]; [exact I|].
    revert H. apply supp_top, widens_same; reflexivity.
  - cbn [modes set_modes]. rewrite E1 in H. apply H.
  - unfold emptyElement. rewrite modes_pushTokenFlush. exact H.
  - unfold startNewMode. cbn [modes set_modes]. split; [|exact H]. cbn [flags_all]. intros b T. rewrite N.lor_spec in T.
    destruct (N.testbit m b) eqn:Q.
    + eexists. split; [left; reflexivity|exact Q].
    + rewrite orb_false_r in T. destruct (modes s) as [|t r]; [rewrite N.bits_0 in T; discriminate T|].
      destruct H as [H _]. destruct (H b T) as [u [U1 U2]]. exists u. split; [right; exact U1|exact U2].
  - revert H. eapply supp_on_top; [|exact E]. intros t. apply widens_set.
  - unfold on_top in E. destruct (modes s) as [|t r]; [discriminate E|]. injection E as <-. cbn [modes set_modes].
    destruct H as [H1 H2]. split; [|exact H2]. cbn [flags_all state_clear]. intros b T. rewrite N.ldiff_spec in T.
    apply andb_prop in T. destruct T as [T1 T2]. destruct (H1 b T1) as [u [[<-|U1] U2]].
    + eexists. split; [left; reflexivity|]. unfold active in *. cbn. rewrite N.ldiff_spec, U2, T2. reflexivity.
    + exists u. split; [right; exact U1|exact U2].
  - revert H. eapply supp_on_top; [|exact E]. intros t. apply widens_same; reflexivity.
  - unfold dupMode in E. destruct (modes s) as [|t r]; [discriminate E|]. injection E as <-. cbn [modes set_modes].
    assert (H1 : supp (state_set (N.lor MODE_TOP MODE_END_AT_ENDIF) t :: r)) by (revert H; apply supp_top, widens_set).
    apply (supp_add [_] _ H1). intros x [<-|[]] b T.
    destruct (widens_trans t (with_opened (unissued l) t) _ (widens_same _ _ eq_refl eq_refl) (widens_set MODE_ISSUE_EMPTY_AT_POP _)) as [_ W].
    destruct (W b T) as [T'|T']; [right|left; exact T'].
    apply (supp_in _ (state_set (N.lor MODE_TOP MODE_END_AT_ENDIF) t) b H1); [left; reflexivity|].
    cbn [flags_all state_set]. rewrite N.lor_spec, T'. reflexivity.
  - unfold insertModeAfter in E. destruct (cut _ _) as [[a b]|] eqn:C; [|discriminate E]. injection E as <-. cbn [modes set_modes].
    assert (Q : modes s = a ++ b).
    { revert a b C. generalize (modes s) as z. induction z as [|t z IH]; intros a b C; cbn in C; [discriminate C|].
      destruct (N.eqb _ _); [injection C as <- <-; reflexivity|].
      destruct (cut _ z) as [[c d]|]; [|discriminate C]. injection C as <- <-. rewrite (IH c d eq_refl). reflexivity. }
    rewrite Q in H. clear Q C. induction a as [|t a IH].
    + cbn in *. split; [|exact H]. cbn. intros x T. eexists. split; [left; reflexivity|exact T].
    + cbn in *. destruct H as [H1 H2]. split; [|apply IH, H2]. intros x T. destruct (H1 x T) as [u [U1 U2]].
      exists u. split; [|exact U2]. rewrite in_app_iff in *. cbn. tauto.
  - unfold dupDownOverMode in E. destruct (cut _ _) as [[a [|t r]]|] eqn:C; try discriminate E. injection E as <-. cbn [modes set_modes].
    assert (Q : modes s = a ++ t :: r).
    { revert a r t C. generalize (modes s) as z. induction z as [|t0 z IH]; intros a r t C; cbn in C; [discriminate C|].
      destruct (negb _); [injection C as <- <- <-; reflexivity|].
      destruct (cut _ z) as [[c d]|]; [|discriminate C]. injection C as <- ->. rewrite (IH c r t eq_refl). reflexivity. }
    rewrite Q in H. clear Q C.
    set (mark := fun x => state_set MODE_END_AT_ENDIF x).
    set (t1 := mark (state_set (N.lor MODE_TOP MODE_END_AT_ENDIF) t)).
    assert (H1 : supp (map mark a ++ t1 :: r)).
    { revert H. apply supp_widen. apply Forall2_app; [apply forall2_map; intros x; apply widens_set|].
      constructor; [|apply forall2_refl, widens_refl]. eapply widens_trans; apply widens_set. }
    set (again := fun x => state_set MODE_ISSUE_EMPTY_AT_POP (with_opened (unissued (map snd (opened x))) x)).
    assert (Wa : forall x b, N.testbit (flags_all (again x)) b = true -> N.testbit (flags_all x) b = true \/ active b (again x)).
    { intros x b T. destruct (widens_trans x (with_opened (unissued (map snd (opened x))) x) _ (widens_same _ _ eq_refl eq_refl) (widens_set MODE_ISSUE_EMPTY_AT_POP _)) as [_ W].
      apply W, T. }
    change (supp (map again (map mark a) ++ again (with_opened [] t1) :: map mark a ++ t1 :: r)).
    rewrite (app_assoc_reverse (map again (map mark a)) [again (with_opened [] t1)]) || idtac.
    replace (map again (map mark a) ++ again (with_opened [] t1) :: map mark a ++ t1 :: r)
      with ((map again (map mark a) ++ [again (with_opened [] t1)]) ++ map mark a ++ t1 :: r) by (rewrite <- app_assoc; reflexivity).
    apply (supp_add _ _ H1). intros x X b T. apply in_app_or in X. destruct X as [X|[<-|[]]].
    + apply in_map_iff in X. destruct X as [y [<- Y]]. destruct (Wa y b T) as [T'|T']; [right|left; exact T'].
      apply (supp_in _ y b H1); [apply in_or_app; left; exact Y|exact T'].
    + destruct (Wa _ b T) as [T'|T']; [right|left; exact T'].
      apply (supp_in _ t1 b H1); [apply in_or_app; right; left; reflexivity|exact T'].
  - rewrite modes_flush. exact H.
  - rewrite modes_take. exact H.
  - rewrite (modes_skip_one _ _ _ E). exact H.
  - rewrite modes_complete. exact H.
  - exact H.
  - rewrite (modes_nop _ _ E). exact H.
  - unfold setType in E. destruct (find_tok _ _); [|discriminate E]. destruct (has_entry _ _); [|discriminate E].
    injection E as <-. cbn [modes set_modes]. revert H. apply supp_widen, forall2_map. intros t. apply widens_same; reflexivity.
Qed.

Lemma modes_leave s s' : modes (leave_region s s') = modes s'.
Proof. unfold leave_region. rewrite !modes_note_if. reflexivity. Qed.
Lemma supp_reach o s s' : reach o s s' -> supp (modes s) -> supp (modes s').
Proof.
  induction 1 as [s|s1 s2 s3 R1 IH1 R2 IH2|s s' P|s s' R IH|s s' R IH|g s s' G R IH|s s' G R IH]; intros H.
  - exact H.
  - apply IH2, IH1, H.
  - exact (supp_prim _ _ _ P H).
  - exact (IH H).
  - exact (IH H).
  - rewrite modes_leave. exact (IH H).
  - exact (IH H).
Qed.
Lemma supp_travels o s s' : travels o s s' -> supp (modes s) -> supp (modes s').
Proof.
  induction 1 as [s|s1 s2 s3 V IH R|s1 s2 t r V IH Q]; intros H; [exact H|eapply supp_reach; eauto|].
  exact (IH H).
Qed.

(** States met while parsing: after some calls of nextToken, part of a program, perhaps inside
    preprocessor handling. *)
Definition ends_in (r : res) (s : ps) : Prop := r = Ret s \/ exists x, r = Exn x s.
Lemma modes_supported o rs src cs l e s :
  pull o rs cs (construct src) = (l, e, s) ->
  supported (modes s) /\
  forall p s', at_skip s = false -> ends_in (run o p s) s' \/ (exists g, at_region o s = Some g /\ ends_in (run o p (enter s)) s') ->
    supported (modes s').
Proof.
  intros P. destruct (construct_tb src) as [t [r [B [Q _]]]].
  destruct (pull_front o rs cs _ _ _ _ _ _ (construct_top src) B P) as [V _].
  assert (H0 : supp (modes (construct src))).
  { split; [|exact I]. intros b T. eexists. split; [left; reflexivity|]. unfold active. exact T. }
  pose proof (supp_travels _ _ _ V H0) as H. split; [apply supp_supported, H|].
  intros p s' W X. apply supp_supported.
  pose proof (at_skip_white _ W) as W'.
  assert (Go : forall s1, at_white s1 = false -> modes s1 = modes s -> ends_in (run o p s1) s' -> supp (modes s')).
  { intros s1 W1 M Y. pose proof (proj1 (fine_run o) p s1 W1) as F. rewrite <- M in H.
    destruct Y as [Y|[x Y]]; rewrite Y in F; destruct F as [F _]; exact (supp_reach _ _ _ F H). }
  destruct X as [X|[g [_ X]]].
  - exact (Go s W' eq_refl X).
  - exact (Go (enter s) W' eq_refl X).
Qed.
