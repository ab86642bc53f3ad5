(** Every step of the parser is a sequence of steps of the abstract machine. *)
From Verif Require Import Base Parser_Model Parser_Spec Parser_Proofs Parser_Proofs2 Parser_Proofs3 Parser_View.
From Coq Require Import Permutation.

Definition issued_of (x : option nat * etype) : list (nat * etype) :=
  match fst x with None => [] | Some n => [(n, snd x)] end.
Definition issued_in (l : list mstate) : list (nat * etype) := concat (map issued_of (concat (map opened l))).
Definition entries s := issued_in (modes s).

(** [x]: what was open, and the next identity, when the handling of a preprocessor line began. *)
Definition look (x : list nat * nat) s : view :=
  if inskip s
  then View (Some (Outer (popped s ++ tb s) (skiptb s) (fst x) (snd x))) (pretb s) (skippretb s)
         (entries s) (comment_ids s) (serial s)
  else View None (popped s ++ tb s) (skiptb s) (entries s) (comment_ids s) (serial s).

Lemma all_look x s : tidy s -> all (look x s) = everything s.
Proof.
  intros T. unfold look, all, rest, everything, buffered. destruct (inskip s) eqn:E; cbn.
  - rewrite <- !app_assoc. reflexivity.
  - destruct (T E) as [-> ->]. rewrite !app_nil_r, <- app_assoc. reflexivity.
Qed.

Lemma ve_look x s : ve (look x s) = entries s.
Proof. unfold look. destruct (inskip s); reflexivity. Qed.
Lemma vc_look x s : vc (look x s) = comment_ids s.
Proof. unfold look. destruct (inskip s); reflexivity. Qed.
Lemma vs_look x s : vs (look x s) = serial s.
Proof. unfold look. destruct (inskip s); reflexivity. Qed.

(** Only these parts of a state matter. *)
Lemma look_eq x s s' :
  inskip s' = inskip s -> popped s' ++ tb s' = popped s ++ tb s -> skiptb s' = skiptb s -> pretb s' = pretb s ->
  skippretb s' = skippretb s -> entries s' = entries s -> comment_ids s' = comment_ids s ->
  serial s' = serial s -> look x s' = look x s.
Proof. intros A B C D E F G H. unfold look. rewrite A, B, C, D, E, F, G, H. reflexivity. Qed.

Lemma look_note_if x b f s : look x (note_if b f s) = look x s.
Proof. destruct b; reflexivity. Qed.
Lemma look_input x i s : look x (set_input i s) = look x s.
Proof. reflexivity. Qed.
Lemma look_paused x p s : look x (set_paused p s) = look x s.
Proof. reflexivity. Qed.
Lemma look_modes x l s : look x (set_modes l s) = with_e (look x s) (issued_in l).
Proof. unfold look, with_e. cbn. destruct (inskip s); reflexivity. Qed.
Lemma look_comments x l s : look x (set_comments l s) = with_c (look x s) (somes l).
Proof. unfold look, with_c. cbn. destruct (inskip s); reflexivity. Qed.

Lemma look_pushToken x ty k w o s : guessing s = 0 ->
  look x (pushToken ty k w o s) = front (look x s) (OTok (serial s) ty k w o).
Proof.
  intros G. unfold pushToken. rewrite G. cbn [Nat.ltb Nat.leb].
  unfold look, set_output, output, front, entries, comment_ids. destruct (inskip s) eqn:E; cbn; rewrite ?E; cbn.
  - reflexivity.
  - rewrite app_assoc. reflexivity.
Qed.
Lemma look_pushSkip x ty k w o s : guessing s = 0 ->
  look x (pushSkipToken ty k w o s) = back (look x s) (OTok (serial s) ty k w o).
Proof.
  intros G. unfold pushSkipToken. rewrite G. cbn [Nat.ltb Nat.leb].
  unfold look, set_skip, skip, back, entries, comment_ids. destruct (inskip s) eqn:E; cbn; rewrite ?E; reflexivity.
Qed.
Definition flushed v := View (vr v) (vf v ++ vb v) [] (ve v) (vc v) (vs v).
Lemma look_flush x s : look x (flushSkip s) = flushed (look x s).
Proof.
  unfold flushSkip, look, set_skip, set_output, output, skip, flushed, entries, comment_ids.
  destruct (inskip s) eqn:E; cbn; rewrite ?E; cbn.
  - reflexivity.
  - rewrite app_assoc. reflexivity.
Qed.
Lemma look_pushTokenFlush x ty k w o s : guessing s = 0 ->
  look x (pushTokenFlush ty k w o s) = front (flushed (look x s)) (OTok (serial s) ty k w o).
Proof.
  intros G. unfold pushTokenFlush. rewrite G. cbn [Nat.ltb Nat.leb].
  rewrite look_pushToken by (rewrite flush_guessing; exact G). rewrite look_flush, flush_serial. reflexivity.
Qed.

(** Steps of the machine with the faults now in the log. *)
Definition goes (x : list nat * nat) s s' : Prop :=
  tidy s -> U (look x s) -> tidy s' /\ vrun (fun f => In f (log s')) (look x s) (look x s').

Lemma goes_refl x s : goes x s s.
Proof. intros T _. split; [exact T|apply vr_refl]. Qed.

Lemma goes_trans x s1 s2 s3 : incl (log s2) (log s3) -> goes x s1 s2 -> goes x s2 s3 -> goes x s1 s3.
Proof.
  intros L A B T H. destruct (A T H) as [T2 R2]. destruct (B T2 (U_run _ _ _ R2 H)) as [T3 R3].
  split; [exact T3|]. eapply vrun_trans; [|exact R3]. eapply vrun_mono; [|exact R2]. intros f F. apply L, F.
Qed.

Lemma goes_calm x s1 s2 s3 : calm s2 s3 -> goes x s1 s2 -> goes x s2 s3 -> goes x s1 s3.
Proof. intros C. apply goes_trans, C. Qed.

Lemma goes_same x s s' : look x s' = look x s -> (tidy s -> tidy s') -> goes x s s'.
Proof. intros E T A _. split; [apply T, A|]. rewrite E. apply vr_refl. Qed.

Lemma goes_step x s s' f : (tidy s -> tidy s') ->
  (tidy s -> U (look x s) -> vstep f (look x s) (look x s')) -> (forall y, f = Some y -> In y (log s')) -> goes x s s'.
Proof. intros T A F H1 H2. split; [apply T, H1|]. eapply vr_step; [apply vr_refl|apply A; assumption|exact F]. Qed.

Lemma tidy_eq s s' : inskip s' = inskip s -> pretb s' = pretb s -> skippretb s' = skippretb s -> tidy s -> tidy s'.
Proof. intros A B C T I. rewrite B, C. apply T. congruence. Qed.

Lemma tidy_note_if b f s : tidy s -> tidy (note_if b f s).
Proof. destruct b; exact (fun H => H). Qed.

Lemma goes_note_if x b f s : goes x s (note_if b f s).
Proof. apply goes_same; [apply look_note_if|apply tidy_note_if]. Qed.

Lemma goes_flush x s : goes x s (flushSkip s).
Proof.
  apply (goes_step x s _ None); [apply tidy_flush| |discriminate].
  intros _ _. rewrite look_flush. apply v_flush.
Qed.

(** Neutral tokens. *)
Definition plain ty k : Prop :=
  match ty, k with
  | TL Lcontrol, Kempty => True
  | TL Lcontrol, _ => False
  | TL _, Ktext => True
  | TE _, Kempty => True
  | _, _ => False
  end.

Lemma goes_neutral_skip x ty k w s : plain ty k -> (match ty with TE _ => w = [] | _ => True end) ->
  goes x s (pushSkipToken ty k w None s).
Proof.
  intros P W. destruct (Nat.eq_dec (guessing s) 0) as [G|G];
    [|rewrite pushSkip_guess by exact G; apply goes_refl].
  apply (goes_step x s _ None); [apply tidy_pushSkip| |discriminate].
  intros _ _. rewrite look_pushSkip by exact G.
  assert (C : k = Ktext \/ k = Kempty) by (destruct ty as [[]| |], k; cbn in P; tauto).
  apply v_back; [split; [exact C|reflexivity]|cbn; rewrite vs_look; reflexivity| |].
  - destruct ty as [[]| |], k; cbn in P |- *; try contradiction; exact W || exact I.
  - destruct ty as [[]| |], k; cbn in P |- *; try contradiction; discriminate.
Qed.
Lemma goes_neutral_flush x ty k w s : plain ty k -> (match ty with TE _ => w = [] | _ => True end) ->
  goes x s (pushTokenFlush ty k w None s).
Proof.
  intros P W. destruct (Nat.eq_dec (guessing s) 0) as [G|G];
    [|rewrite pushTokenFlush_guess by exact G; apply goes_refl].
  intros T _. split; [apply tidy_pushTokenFlush, T|].
  eapply vr_step with (f := None); [eapply vr_step with (f := None); [apply vr_refl|apply v_flush|discriminate]| |discriminate].
  rewrite look_pushTokenFlush by exact G.
  assert (C : k = Ktext \/ k = Kempty) by (destruct ty as [[]| |], k; cbn in P; tauto).
  apply v_front; [split; [exact C|reflexivity]|cbn; rewrite vs_look; reflexivity| |].
  - destruct ty as [[]| |], k; cbn in P |- *; try contradiction; exact W || exact I.
  - destruct ty as [[]| |], k; cbn in P |- *; try contradiction; discriminate.
Qed.

Lemma with_e_same v : with_e v (ve v) = v.
Proof. destruct v; reflexivity. Qed.
Lemma with_c_same v : with_c v (vc v) = v.
Proof. destruct v; reflexivity. Qed.

Lemma goes_modes x l s : issued_in l = entries s -> goes x s (set_modes l s).
Proof.
  intros E. apply goes_same; [|exact (fun H => H)]. rewrite look_modes, E, <- (ve_look x s). apply with_e_same.
Qed.

Lemma issued_cons t r : issued_in (t :: r) = concat (map issued_of (opened t)) ++ issued_in r.
Proof. unfold issued_in. cbn. rewrite map_app, concat_app. reflexivity. Qed.
Lemma issued_app a b : issued_in (a ++ b) = issued_in a ++ issued_in b.
Proof. unfold issued_in. rewrite map_app, concat_app, map_app, concat_app. reflexivity. Qed.
Lemma issued_none l : concat (map issued_of (unissued l)) = [].
Proof. unfold unissued. rewrite map_map. induction l; [reflexivity|exact IHl]. Qed.
Lemma issued_map (f : mstate -> mstate) l : (forall t, opened (f t) = opened t) -> issued_in (map f l) = issued_in l.
Proof.
  intros H. induction l as [|t l IH]; [reflexivity|]. cbn [map]. rewrite !issued_cons, H, IH. reflexivity.
Qed.
Lemma issued_gone (f : mstate -> mstate) l : (forall t, concat (map issued_of (opened (f t))) = []) -> issued_in (map f l) = [].
Proof. intros H. induction l as [|t l IH]; [reflexivity|]. cbn [map]. rewrite issued_cons, H, IH. reflexivity. Qed.

Lemma goes_on_top x f s s' :
  (forall t, concat (map issued_of (opened (f t))) = concat (map issued_of (opened t))) ->
  on_top f s = Ret s' -> goes x s s'.
Proof.
  intros H. unfold on_top. destruct (modes s) as [|t r] eqn:M; [discriminate|]. intros E. injection E as <-.
  apply goes_modes. unfold entries. rewrite M, !issued_cons, H. reflexivity.
Qed.

Lemma cut_app f l a b : cut f l = Some (a, b) -> l = a ++ b.
Proof.
  revert a b. induction l as [|t l IH]; intros a b E; cbn in E; [discriminate E|].
  destruct (f t); [injection E as <- <-; reflexivity|].
  destruct (cut f l) as [[c d]|]; [|discriminate E]. injection E as <- <-.
  rewrite (IH c d eq_refl). reflexivity.
Qed.

Lemma vb_look x s : vb (look x s) = skip s.
Proof. unfold look, skip. destruct (inskip s); reflexivity. Qed.
Lemma quiet_if_in x s s' y : quiet_if (look x s) = Some y -> guessing s = 0 ->
  (in_comment s = true -> In Fcomment (log s')) -> In y (log s').
Proof.
  unfold quiet_if. rewrite vc_look, vb_look. intros E G H. unfold comment_ids in E.
  assert (Q : existsb issued (comments s) || stray (skip s) = true).
  { induction (comments s) as [|[n|] l IH]; cbn in *; [destruct (stray _); [reflexivity|discriminate E]|reflexivity|].
    apply IH. exact E. }
  assert (y = Fcomment) as ->.
  { destruct (somes (comments s)); [destruct (stray _)|]; congruence. }
  apply H. unfold in_comment. rewrite G, Q. reflexivity.
Qed.

Lemma issuing_look x s : guessing s = 0 -> issuing s = Some (vs (look x s)).
Proof. intros G. unfold issuing. rewrite G, vs_look. reflexivity. Qed.
Lemma issuing_guess s : guessing s <> 0 -> issuing s = None.
Proof. intros G. unfold issuing. destruct (guessing s); [congruence|reflexivity]. Qed.

Lemma in_note_if b f s : b = true -> In f (log (note_if b f s)).
Proof. intros ->. left. reflexivity. Qed.

Lemma goes_start x e s s' : startElement e s = Ret s' -> goes x s s'.
Proof.
  unfold startElement, on_top. destruct (modes s) as [|t r] eqn:M; [discriminate|]. cbn [bind].
  intros E. injection E as <-.
  set (s1 := set_modes (with_opened ((issuing s, e) :: opened t) t :: r) s).
  destruct (Nat.eq_dec (guessing s) 0) as [G|G].
  - intros T _. split; [apply tidy_note_if, tidy_pushTokenFlush; exact T|].
    rewrite look_note_if.
    eapply vr_step with (f := quiet_if (flushed (look x s)));
      [eapply vr_step with (f := None); [apply vr_refl|apply v_flush|discriminate]| |].
    + rewrite look_pushTokenFlush by exact G. unfold s1.
      rewrite look_modes, issued_cons. cbn [opened with_opened map concat].
      rewrite (issuing_look x s G). unfold issued_of at 1. cbn [fst snd app].
      change (serial (set_modes (with_opened ((Some (vs (look x s)), e) :: opened t) t :: r) s)) with (serial s).
      rewrite <- (vs_look x s).
      replace (concat (map issued_of (opened t)) ++ issued_in r) with (ve (flushed (look x s))).
      * exact (v_open (flushed (look x s)) e).
      * change (ve (flushed (look x s))) with (ve (look x s)). rewrite ve_look. unfold entries.
        rewrite M. apply issued_cons.
    + intros y Y. rewrite <- look_flush in Y.
      apply (quiet_if_in x (flushSkip s) _ y Y); [rewrite flush_guessing; exact G|]. intros C. apply in_note_if.
      rewrite <- C. unfold in_comment, flushSkip, set_skip, set_output, skip, s1. cbn. destruct (inskip s) eqn:I; cbn; rewrite ?I; reflexivity.
  - rewrite pushTokenFlush_guess by exact G.
    eapply goes_calm; [apply calm_note_if| |apply goes_note_if].
    apply goes_modes. rewrite (issuing_guess s G). unfold entries. rewrite M, !issued_cons. reflexivity.
Qed.
Lemma goes_start_ns x e s s' : startNoSkipElement e s = Ret s' -> goes x s s'.
Proof.
  unfold startNoSkipElement, on_top. destruct (modes s) as [|t r] eqn:M; [discriminate|]. cbn [bind].
  intros E. injection E as <-.
  set (s1 := set_modes (with_opened ((issuing s, e) :: opened t) t :: r) s).
  destruct (Nat.eq_dec (guessing s) 0) as [G|G].
  - intros T _. split; [apply tidy_note_if, tidy_pushToken; exact T|].
    rewrite look_note_if.
    eapply vr_step with (f := quiet_if (look x s)); [apply vr_refl| |].
    + rewrite look_pushToken by exact G. unfold s1.
      rewrite look_modes, issued_cons. cbn [opened with_opened map concat].
      rewrite (issuing_look x s G). unfold issued_of at 1. cbn [fst snd app].
      change (serial (set_modes (with_opened ((Some (vs (look x s)), e) :: opened t) t :: r) s)) with (serial s).
      rewrite <- (vs_look x s).
      replace (concat (map issued_of (opened t)) ++ issued_in r) with (ve (look x s)).
      * exact (v_open (look x s) e).
      * rewrite ve_look. unfold entries. rewrite M. apply issued_cons.
    + intros y Y. apply (quiet_if_in x s _ y Y G). intros C. apply in_note_if. exact C.
  - rewrite pushToken_guess by exact G.
    eapply goes_calm; [apply calm_note_if| |apply goes_note_if].
    apply goes_modes. rewrite (issuing_guess s G). unfold entries. rewrite M, !issued_cons. reflexivity.
Qed.

Lemma goes_end x s : 0 < top_open s -> goes x s (endElement s).
Proof.
  unfold top_open, endElement, end_element. destruct (modes s) as [|t r] eqn:M; [intros H; inversion H|].
  destruct (opened t) as [|[a e] oo] eqn:O; [intros H; inversion H|]. intros _.
  assert (En : entries s = issued_of (a, e) ++ concat (map issued_of oo) ++ issued_in r).
  { unfold entries. rewrite M, issued_cons, O. cbn [map concat]. rewrite <- app_assoc. reflexivity. }
  assert (Em : forall u, issued_in (with_opened oo t :: r) = concat (map issued_of oo) ++ issued_in r /\ u = u :> ps).
  { intros u. split; [apply issued_cons|reflexivity]. }
  pose proof (proj1 (Em s)) as Ei. clear Em.
  destruct (N.eqb _ _).
  - destruct (Nat.eq_dec (guessing s) 0) as [G|G].
    + (* an end tag *)
      intros T _. split.
      { apply tidy_note_if. apply (tidy_pushToken (TE e) Kend [] a). repeat apply tidy_note_if. exact T. }
      rewrite look_note_if, look_modes, Ei.
      destruct a as [n|].
      * rewrite G. cbn [Nat.eqb Nat.ltb Nat.leb andb note_if]. rewrite G. cbn [Nat.ltb Nat.leb andb note_if].
        rewrite look_pushToken by exact G.
        eapply vr_step with (f := quiet_if (look x s)); [apply vr_refl| |].
        -- rewrite <- (vs_look x s). apply (v_close (look x s) n e). rewrite ve_look, En. reflexivity.
        -- intros y Y. apply (quiet_if_in x s _ y Y G). apply in_note_if.
      * rewrite G. cbn [Nat.eqb Nat.ltb Nat.leb andb note_if guessing note]. rewrite G.
        cbn [Nat.ltb Nat.leb andb note_if].
        rewrite look_pushToken by exact G.
        eapply vr_step with (f := Some Funopened); [apply vr_refl| |].
        -- change (look x (note Funopened s)) with (look x s).
           replace (concat (map issued_of oo) ++ issued_in r) with (ve (front (look x s) (OTok (serial (note Funopened s)) (TE e) Kend [] None))).
           ++ rewrite with_e_same. change (serial (note Funopened s)) with (serial s). rewrite <- (vs_look x s).
              apply (v_close_none (look x s) e).
           ++ cbn [ve front]. rewrite ve_look, En. reflexivity.
        -- intros y Y. injection Y as <-. apply (calm_log _ _ (calm_note_if _ _ _)). cbn [log set_modes].
           apply (calm_log _ _ (calm_pushToken _ _ _ _ _)). left. reflexivity.
    + (* while guessing *)
      assert (G1 : forall b f, guessing (note_if b f s) <> 0) by (intros [] f; exact G).
      rewrite pushToken_guess.
      2: { match goal with |- guessing (note_if ?b ?f (note_if ?c ?g s)) <> 0 =>
             destruct b; [exact (G1 c g)|exact (G1 c g)] end. }
      intros T _. split; [apply tidy_note_if; apply (tidy_eq s); try reflexivity|].
      { match goal with |- context [note_if ?b ?f (note_if ?c ?g s)] => destruct b, c; reflexivity end. }
      { match goal with |- context [note_if ?b ?f (note_if ?c ?g s)] => destruct b, c; reflexivity end. }
      { match goal with |- context [note_if ?b ?f (note_if ?c ?g s)] => destruct b, c; reflexivity end. }
      { exact T. }
      rewrite look_note_if, look_modes, Ei, !look_note_if.
      destruct a as [n|].
      * eapply vr_step with (f := Some Funclosed); [apply vr_refl| |].
        -- apply (v_drop (look x s) n e). rewrite ve_look, En. reflexivity.
        -- intros y Y. injection Y as <-. apply (calm_log _ _ (calm_note_if _ _ _)). cbn [log set_modes].
           apply in_note_if. destruct (0 <? guessing s) eqn:Q.
           ++ assert (L : 0 <? guessing (note_if ((0 =? guessing s) && false) Funopened s) = true).
              { destruct (_ && _); exact Q. } rewrite L. reflexivity.
           ++ apply Nat.ltb_ge in Q. lia.
      * replace (concat (map issued_of oo) ++ issued_in r) with (ve (look x s)).
        -- rewrite with_e_same. apply vr_refl.
        -- rewrite ve_look, En. reflexivity.
  - (* re-issued *)
    set (s1 := note_if _ _ s).
    assert (G1 : guessing s1 = guessing s) by apply calm_note_if.
    set (s2 := set_modes (with_opened oo t :: r) s1).
    assert (A : goes x s s2).
    { unfold s2, s1. intros T _. split; [apply tidy_note_if, T|]. rewrite look_modes, Ei, look_note_if.
      destruct a as [n|].
      - eapply vr_step with (f := Some Funclosed); [apply vr_refl| |].
        + apply (v_drop (look x s) n e). rewrite ve_look, En. reflexivity.
        + intros y Y. injection Y as <-. left. reflexivity.
      - replace (concat (map issued_of oo) ++ issued_in r) with (ve (look x s)).
        + rewrite with_e_same. apply vr_refl.
        + rewrite ve_look, En. reflexivity. }
    destruct (Nat.eq_dec (guessing s) 0) as [G|G].
    + eapply goes_trans; [|exact A|].
      { intros y Y. apply (calm_log _ _ (calm_note_if _ _ _)). cbn [log set_modes].
        apply (calm_log _ _ (calm_pushToken _ _ _ _ _)), (calm_log _ _ (calm_pushToken _ _ _ _ _)). exact Y. }
      intros T _. split.
      { apply tidy_note_if. apply (tidy_pushToken (TE e) Kend []), (tidy_pushToken (TE e) Kstart []). exact T. }
      assert (G2 : guessing (pushToken (TE e) Kstart [] None s1) = 0).
      { rewrite (calm_g _ _ (calm_pushToken _ _ _ _ _)). congruence. }
      rewrite look_note_if, look_modes, look_pushToken by exact G2.
      rewrite look_pushToken by congruence.
      assert (L : look x s2 = with_e (look x s1) (issued_in (with_opened oo t :: r))) by apply look_modes.
      eapply vr_step with (f := quiet_if (look x s2)); [apply vr_refl| |].
      * pose proof (v_pair (look x s2) e) as V. rewrite L in V |- *.
        unfold issuing. rewrite G1, G. cbn [Nat.ltb Nat.leb].
        replace (serial (pushToken (TE e) Kstart [] None s1)) with (S (serial s1)).
        2: { unfold pushToken. rewrite G1, G. reflexivity. }
        rewrite <- (vs_look x s1). exact V.
      * intros y Y. apply (quiet_if_in x s2 _ y Y); [exact (eq_trans G1 G)|].
        intros C. apply in_note_if. unfold in_comment in *. rewrite <- C. unfold s2, s1.
        destruct (match a with None => false | Some _ => true end); reflexivity.
    + rewrite (pushToken_guess (TE e) Kstart []) by congruence.
      rewrite pushToken_guess by congruence.
      eapply goes_calm; [apply calm_note_if|exact A|apply goes_note_if].
Qed.

Lemma goes_dup x l s s' : dupMode l s = Ret s' -> goes x s s'.
Proof.
  unfold dupMode. destruct (modes s) as [|t r] eqn:M; [discriminate|]. intros E. injection E as <-.
  apply goes_modes. unfold entries. rewrite M, !issued_cons. cbn [opened state_set with_opened].
  rewrite issued_none. reflexivity.
Qed.
Lemma goes_insert x m n l s s' : insertModeAfter m n l s = Ret s' -> goes x s s'.
Proof.
  unfold insertModeAfter. destruct (cut _ _) as [[a b]|] eqn:C; [|discriminate].
  intros E. injection E as <-. apply goes_modes. unfold entries.
  rewrite (cut_app _ _ _ _ C), !issued_app, issued_cons. cbn [opened]. rewrite issued_none. reflexivity.
Qed.
Lemma goes_dupdown x m s s' : dupDownOverMode m s = Ret s' -> goes x s s'.
Proof.
  unfold dupDownOverMode. destruct (cut _ _) as [[a [|t r]]|] eqn:C; try discriminate.
  intros E. injection E as <-. apply goes_modes. unfold entries.
  rewrite (cut_app _ _ _ _ C), !issued_app, !issued_cons, !issued_app, !issued_cons.
  rewrite (issued_gone (fun x => state_set MODE_ISSUE_EMPTY_AT_POP
     (with_opened (unissued (map snd (opened x))) x))) by (intros y; apply issued_none).
  rewrite (issued_map (state_set MODE_END_AT_ENDIF)) by reflexivity. cbn. reflexivity.
Qed.

Lemma goes_pop_mode x t r s : modes s = t :: r -> opened t = [] -> goes x s (set_modes r s).
Proof. intros M O. apply goes_modes. unfold entries. rewrite M, issued_cons, O. reflexivity. Qed.

(** Comments. *)
Lemma goes_pop_comment x c s n s' : pop_comment s = Some (n, s') ->
  goes x s (pushSkipToken (TE (Ecomment c)) Kend [] n s').
Proof.
  unfold pop_comment. destruct (comments s) as [|o l] eqn:C; [discriminate|]. intros E. injection E as <- <-.
  assert (Q : comment_ids s = one o ++ somes l).
  { unfold comment_ids. rewrite C. unfold somes. cbn. destruct o; reflexivity. }
  destruct (Nat.eq_dec (guessing s) 0) as [G|G].
  - intros T _. split; [apply tidy_pushSkip; apply (tidy_note_if _ Funclosed), tidy_note_if, T|].
    destruct o as [n|].
    + rewrite G. cbn [Nat.eqb Nat.ltb Nat.leb andb note_if]. rewrite G. cbn [Nat.ltb Nat.leb andb note_if].
      rewrite look_pushSkip by exact G. rewrite look_comments.
      change (serial (set_comments l s)) with (serial s). rewrite <- (vs_look x s).
      eapply vr_step with (f := None); [apply vr_refl| |discriminate].
      apply (v_cclose (look x s) n c (somes l)). rewrite vc_look, Q. reflexivity.
    + rewrite G. cbn [Nat.eqb Nat.ltb Nat.leb andb note_if guessing note]. rewrite G.
      cbn [Nat.ltb Nat.leb andb note_if].
      rewrite look_pushSkip by exact G. rewrite look_comments.
      change (look x (note Funopened s)) with (look x s).
      change (serial (set_comments l (note Funopened s))) with (serial s). rewrite <- (vs_look x s).
      eapply vr_step with (f := Some Funopened); [apply vr_refl| |].
      * replace (somes l) with (vc (look x s)) by (rewrite vc_look, Q; reflexivity). rewrite with_c_same.
        apply v_cclose_none.
      * intros y Y. injection Y as <-. apply (calm_log _ _ (calm_pushSkip _ _ _ _ _)). left. reflexivity.
  - set (s1 := note_if _ Funopened s).
    assert (G1 : guessing s1 = guessing s) by apply calm_note_if.
    rewrite pushSkip_guess.
    2: { cbn [guessing set_comments]. rewrite (calm_g _ _ (calm_note_if _ _ _)). congruence. }
    intros T _. split; [apply (tidy_note_if _ Funclosed s1), tidy_note_if, T|].
    rewrite look_comments, look_note_if. assert (L : look x s1 = look x s) by apply look_note_if. rewrite L.
    destruct o as [n|].
    + eapply vr_step with (f := Some Funclosed); [apply vr_refl| |].
      * apply (v_cdrop (look x s) n). rewrite vc_look, Q. reflexivity.
      * intros y Y. injection Y as <-. cbn [log set_comments]. apply in_note_if. rewrite G1.
        destruct (guessing s); [congruence|reflexivity].
    + replace (somes l) with (vc (look x s)) by (rewrite vc_look, Q; reflexivity). rewrite with_c_same. apply vr_refl.
Qed.

Lemma goes_complete x s : goes x s (completeSkip s).
Proof.
  unfold completeSkip. destruct (pop_comment s) as [[n s1]|] eqn:P; [|apply goes_refl].
  apply (goes_pop_comment x Cblock), P.
Qed.

Lemma goes_copen x c s : goes x s (set_comments (issuing s :: comments s) (pushSkipToken (TE (Ecomment c)) Kstart [] None s)).
Proof.
  destruct (Nat.eq_dec (guessing s) 0) as [G|G].
  - apply (goes_step x s _ None); [apply tidy_pushSkip| |discriminate]. intros _ _.
    rewrite look_comments, look_pushSkip by exact G. rewrite (issuing_look x s G).
    pose proof (v_copen (look x s) c) as V. rewrite vc_look in V. rewrite <- (vs_look x s). exact V.
  - rewrite pushSkip_guess by exact G. rewrite (issuing_guess s G).
    apply goes_same; [|exact (fun H => H)]. rewrite look_comments.
    change (somes (None :: comments s)) with (comment_ids s). rewrite <- (vc_look x s). apply with_c_same.
Qed.

Lemma goes_drop1 x s : goes x s (drop1 s).
Proof. apply goes_same; [apply look_input|exact (fun H => H)]. Qed.

Lemma calm_by s s' : guessing s' = guessing s -> log s' = log s -> inskip s' = inskip s -> calm s s'.
Proof. intros A B C. constructor; [exact A|rewrite B; apply incl_refl|exact C]. Qed.

Lemma comments_pushSkip ty k w o s : comments (pushSkipToken ty k w o s) = comments s.
Proof. unfold pushSkipToken, set_skip. destruct (0 <? guessing s); [reflexivity|]. destruct (inskip s); reflexivity. Qed.
Lemma guessing_pushSkip ty k w o s : guessing (pushSkipToken ty k w o s) = guessing s.
Proof. apply calm_pushSkip. Qed.
Lemma log_pushSkip ty k w o s : log (pushSkipToken ty k w o s) = log s.
Proof. unfold pushSkipToken, set_skip. destruct (0 <? guessing s); [reflexivity|]. destruct (inskip s); reflexivity. Qed.

Lemma inskip_pushSkip ty k w o s : inskip (pushSkipToken ty k w o s) = inskip s.
Proof. apply calm_pushSkip. Qed.
Ltac calm_push :=
  apply calm_by; repeat (cbn [guessing log inskip drop1 set_input set_comments];
    rewrite ?guessing_pushSkip, ?log_pushSkip, ?inskip_pushSkip); reflexivity.

(** The comment stack and the output commute with a text token. *)
Lemma set_comments_pushSkip l ty k w o s :
  set_comments l (pushSkipToken ty k w o s) = pushSkipToken ty k w o (set_comments l s).
Proof.
  destruct s as [? g i]. unfold pushSkipToken, set_skip, skip. destruct g, i; reflexivity.
Qed.

Lemma goes_skip_one x t s s' : skip_one t s = Ret s' -> goes x s s'.
Proof.
  unfold skip_one.
  assert (Txt : forall l u, l <> Lcontrol -> goes x u (drop1 (pushSkipToken (TL l) Ktext (l_text t) None u))).
  { intros l u H. eapply goes_calm; [apply calm_drop1|apply goes_neutral_skip; [destruct l; try exact I; congruence|exact I]|apply goes_drop1]. }
  destruct (l_type t) as [n| | | |c|c| | | |n] eqn:L.
  all: try (intros E; injection E as <-; apply Txt; discriminate).
  - intros E. injection E as <-.
    eapply goes_calm; [apply calm_drop1|apply goes_neutral_skip; exact I|apply goes_drop1].
  - (* whole comment *)
    intros E. injection E as <-.
    destruct (Nat.eq_dec (guessing s) 0) as [G|G].
    + set (s1 := set_comments (issuing s :: comments s) (pushSkipToken (TE (Ecomment Cblock)) Kstart [] None s)).
      set (s2 := drop1 (pushSkipToken (TL Lwhole) Ktext (l_text t) None s1)).
      assert (P : pop_comment s2 = Some (issuing s, set_comments (comments s) s2)).
      { unfold pop_comment. assert (C2 : comments s2 = issuing s :: comments s).
        { unfold s2. cbn [comments drop1 set_input]. rewrite comments_pushSkip. reflexivity. }
        assert (G2 : guessing s2 = 0).
        { unfold s2. cbn [guessing drop1 set_input]. rewrite guessing_pushSkip. unfold s1.
          cbn [guessing set_comments]. rewrite guessing_pushSkip. exact G. }
        rewrite C2, G2, (issuing_look x s G). cbn [Nat.eqb Nat.ltb Nat.leb andb note_if]. rewrite G2. reflexivity. }
      pose proof (goes_pop_comment x Cblock _ _ _ P) as A.
      assert (E : set_comments (comments s) s2 =
                  drop1 (pushSkipToken (TL Lwhole) Ktext (l_text t) None
                     (pushSkipToken (TE (Ecomment Cblock)) Kstart [] None s))).
      { unfold s2, s1, drop1.
        change (set_comments (comments s) (set_input ?i ?u)) with (set_input i (set_comments (comments s) u)).
        rewrite !set_comments_pushSkip. rewrite !input_pushSkip. cbn [input set_comments].
        destruct s; reflexivity. }
      rewrite E in A.
      eapply goes_calm; [|apply (goes_copen x Cblock)|].
      2: { eapply goes_calm; [|apply (Txt Lwhole); discriminate|exact A].
           calm_push. }
      calm_push.
    + rewrite !pushSkip_guess; [apply goes_drop1|exact G|cbn; rewrite ?guessing_pushSkip; exact G|].
      cbn. rewrite !guessing_pushSkip. exact G.
  - (* comment start *)
    intros E. injection E as <-.
    eapply goes_calm; [|apply (goes_copen x c)|].
    2: { match goal with |- goes _ _ ?u => replace u
           with (drop1 (pushSkipToken (TL (Lopen c)) Ktext (l_text t) None
                  (set_comments (issuing s :: comments s) (pushSkipToken (TE (Ecomment c)) Kstart [] None s)))) end.
         - apply Txt. discriminate.
         - unfold drop1. cbn [comments set_input]. rewrite !comments_pushSkip.
           rewrite <- !set_comments_pushSkip. reflexivity. }
    calm_push.
  - destruct (pop_comment s) as [[n s1]|] eqn:P; [|discriminate].
    assert (early : goes x s (drop1 (pushSkipToken (TL (Lclose c)) Ktext (l_text t) None
                      (pushSkipToken (TE (Ecomment c)) Kend [] n s1)))).
    { eapply goes_calm; [|apply (goes_pop_comment x c), P|apply Txt; discriminate].
      eapply calm_trans; [apply calm_pushSkip|apply calm_drop1]. }
    assert (late : goes x s (pushSkipToken (TE (Ecomment c)) Kend [] n
                      (drop1 (pushSkipToken (TL (Lclose c)) Ktext (l_text t) None s1)))).
    { set (s2 := drop1 (pushSkipToken (TL (Lclose c)) Ktext (l_text t) None s)).
      assert (P2 : pop_comment s2 = Some (n, drop1 (pushSkipToken (TL (Lclose c)) Ktext (l_text t) None s1))).
      { unfold pop_comment in P |- *. unfold s2, drop1. cbn [comments set_input]. rewrite comments_pushSkip.
        destruct (comments s) as [|o l]; [discriminate P|]. injection P as <- <-.
        cbn [guessing set_input]. rewrite guessing_pushSkip.
        assert (Q : forall b f u, note_if b f (set_input (tl (input (pushSkipToken (TL (Lclose c)) Ktext (l_text t) None u)))
                      (pushSkipToken (TL (Lclose c)) Ktext (l_text t) None u)) =
                    (set_input (tl (input (pushSkipToken (TL (Lclose c)) Ktext (l_text t) None (note_if b f u))))
                      (pushSkipToken (TL (Lclose c)) Ktext (l_text t) None (note_if b f u)))).
        { intros [] f [? g i]; [|reflexivity]. unfold note_if. unfold pushSkipToken, set_skip, skip.
          destruct g, i; reflexivity. }
        rewrite Q. cbn [guessing set_input]. rewrite guessing_pushSkip. rewrite Q.
        rewrite <- set_comments_pushSkip. reflexivity. }
      pose proof (goes_pop_comment x c _ _ _ P2) as A.
      eapply goes_calm; [|apply (Txt (Lclose c)); discriminate|exact A].
      eapply calm_trans; [eapply calm_pop_comment, P2|apply calm_pushSkip]. }
    destruct c; try destruct (ends_line (l_text t)); intros E; injection E as <-; assumption.
Qed.
