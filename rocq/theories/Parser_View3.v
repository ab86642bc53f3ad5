(** Every step of the parser is a sequence of steps of the abstract machine, continued. *)
From Verif Require Import Base Parser_Model Parser_Spec Parser_Proofs Parser_Proofs2 Parser_Proofs3 Parser_View Parser_View2.
From Coq Require Import Permutation.

Lemma entries_nothing s :
  existsb (fun t => match opened t with [] => false | _ => true end) (modes s) = false -> entries s = [].
Proof.
  unfold entries. induction (modes s) as [|t r IH]; intros H; [reflexivity|].
  cbn in H. apply orb_false_elim in H. destruct H as [A B].
  rewrite issued_cons, IH by exact B. destruct (opened t); [reflexivity|discriminate A].
Qed.
Lemma comments_nothing s :
  existsb (fun o : option nat => match o with None => false | Some _ => true end) (comments s) = false ->
  comment_ids s = [].
Proof.
  unfold comment_ids, somes. induction (comments s) as [|[n|] r IH]; intros H; [reflexivity|discriminate H|].
  apply IH. exact H.
Qed.

Lemma goes_take x s : (at_white s = true -> 0 < guessing s \/ In Fmacro (log s)) -> goes x s (take s).
Proof.
  intros W. unfold take. destruct (input s) as [|t r] eqn:N.
  - cbv zeta. match goal with |- goes _ _ (pushTokenFlush _ _ _ _ (note_if ?b _ _)) => set (c := b) end.
    assert (G1 : guessing (note_if c Feof s) = guessing s) by apply calm_note_if.
    destruct (Nat.eq_dec (guessing s) 0) as [G|G].
    + intros T _. split; [apply tidy_pushTokenFlush, tidy_note_if, T|].
      rewrite look_pushTokenFlush by congruence. rewrite look_note_if.
      set (u := OTok _ _ _ _ _).
      assert (Iu : o_id u = vs (look x s)) by (unfold u; rewrite vs_look; cbn; destruct c; reflexivity).
      assert (Nu : neutral u) by (split; [left|]; reflexivity).
      destruct c eqn:C.
      * eapply vr_step with (f := Some Feof);
          [eapply vr_step with (f := None); [apply vr_refl|apply v_flush|discriminate]| |].
        -- apply v_bad_eof; [reflexivity|exact Nu|exact I|exact Iu].
        -- intros y Y. injection Y as <-. apply (calm_log _ _ (calm_pushTokenFlush _ _ _ _ _)). left. reflexivity.
      * eapply vr_step with (f := None);
          [eapply vr_step with (f := None); [apply vr_refl|apply v_flush|discriminate]| |discriminate].
        unfold c in C. rewrite G in C. cbn [Nat.eqb andb] in C.
        apply orb_false_elim in C. destruct C as [C C3]. apply orb_false_elim in C. destruct C as [C1 C2].
        apply (v_eof (flushed (look x s)) u); [reflexivity|exact Nu|exact I|exact Iu|reflexivity| | |].
        -- unfold look. rewrite C3. reflexivity.
        -- change (ve (flushed (look x s))) with (ve (look x s)). rewrite ve_look. apply entries_nothing, C1.
        -- change (vc (flushed (look x s))) with (vc (look x s)). rewrite vc_look. apply comments_nothing, C2.
    + rewrite pushTokenFlush_guess by congruence. apply goes_note_if.
  - destruct (is_skip_tok (inskip s) (l_type t)) eqn:K.
    + eapply goes_calm; [apply calm_drop1| |apply goes_drop1].
      destruct (lex_eq_dec (l_type t) Lcontrol) as [Q|Q].
      * rewrite Q in *. destruct (Nat.eq_dec (guessing s) 0) as [G|G];
          [|rewrite pushSkip_guess by exact G; apply goes_refl].
        assert (M : In Fmacro (log s)).
        { unfold at_white in W. rewrite N, Q in W. destruct (W eq_refl); [lia|assumption]. }
        apply (goes_step x s _ (Some Fmacro)); [apply tidy_pushSkip| |].
        -- intros _ _. rewrite look_pushSkip by exact G.
           apply v_bad_back; [split; [left|]; reflexivity|cbn; rewrite vs_look; reflexivity].
        -- intros y Y. injection Y as <-. rewrite log_pushSkip. exact M.
      * apply goes_neutral_skip; [|exact I]. destruct (l_type t); try exact I. congruence.
    + eapply goes_calm; [apply calm_drop1| |apply goes_drop1].
      apply goes_neutral_flush; [|exact I]. destruct (l_type t); try exact I. discriminate K.
Qed.

(** Retyping. *)
Lemma retype1_id n ty l : ~ In n (ids l) -> retype1 n ty l = l.
Proof.
  induction l as [|t l IH]; intros H; [reflexivity|]. cbn [retype1 map]. fold (retype1 n ty l).
  destruct (Nat.eqb_spec (o_id t) n) as [E|E]; [exfalso; apply H; left; exact E|].
  rewrite IH; [reflexivity|]. intros X. apply H. right. exact X.
Qed.

Lemma find_tok_in n l t : find_tok n l = Some t -> In t l /\ o_id t = n.
Proof.
  unfold find_tok. intros H. apply find_some in H. rewrite Nat.eqb_eq in H. exact H.
Qed.

Lemma ids_app a b : ids (a ++ b) = ids a ++ ids b.
Proof. apply map_app. Qed.

Lemma not_popped x s n t : tidy s -> U (look x s) -> In t (buffered s) -> o_id t = n -> ~ In n (ids (popped s)).
Proof.
  intros T H I E P. pose proof (u_ids _ H) as N. rewrite (all_look x s T) in N.
  unfold everything in N. rewrite ids_app in N.
  assert (Q : In n (ids (buffered s))) by (subst n; apply in_map, I).
  clear -N P Q. revert N P. generalize (ids (popped s)) as l. induction l as [|a l IH]; intros N P; [destruct P|].
  cbn in N. inversion N as [|? ? N1 N2]; subst. destruct P as [->|P]; [|apply IH; assumption].
  apply N1, in_or_app. right. exact Q.
Qed.

Lemma look_retype x n ty s : ~ In n (ids (popped s)) -> look x (retype_bufs n ty s) = retype_view n ty (look x s).
Proof.
  intros P. unfold look, retype_bufs, retype_view, entries, comment_ids. cbn.
  assert (E : popped s ++ retype1 n ty (tb s) = retype1 n ty (popped s ++ tb s)).
  { rewrite retype_app, (retype1_id n ty (popped s)) by exact P. reflexivity. }
  destruct (inskip s); cbn; rewrite E; reflexivity.
Qed.

Lemma tidy_retype n ty s : tidy s -> tidy (retype_bufs n ty s).
Proof. intros T I. destruct (T I) as [A B]. cbn. rewrite A, B. split; reflexivity. Qed.

Lemma issued_retype n e l :
  issued_in (map (fun t => with_opened (map (retype_entry n e) (opened t)) t) l) =
  map (fun x => if fst x =? n then (fst x, e) else x) (issued_in l).
Proof.
  induction l as [|t l IH]; [reflexivity|]. cbn [map]. rewrite !issued_cons, map_app, IH. f_equal.
  cbn [opened with_opened]. induction (opened t) as [|[[k|] e0] oo IO]; [reflexivity| |]; cbn [map concat].
  - rewrite map_app, IO. unfold retype_entry, entry_is, issued_of. cbn [fst snd].
    destruct (k =? n) eqn:Q; cbn; rewrite Q; reflexivity.
  - exact IO.
Qed.

Lemma has_entry_in n s : has_entry n s = true -> In n (map fst (entries s)).
Proof.
  unfold has_entry, entries. induction (modes s) as [|t r IH]; intros H; [discriminate H|].
  cbn in H. rewrite issued_cons, map_app. apply in_or_app. apply orb_prop in H. destruct H as [H|H]; [left|right; apply IH, H].
  induction (opened t) as [|[[k|] e] oo IO]; [discriminate H| |]; cbn in H |- *.
  - destruct (k =? n) eqn:Q; [left; apply Nat.eqb_eq, Q|right; apply IO, H].
  - apply IO, H.
Qed.

Lemma goes_type x n e s s' : setType n e s = Ret s' -> goes x s s'.
Proof.
  unfold setType. destruct (find_tok n (buffered s)) as [t|] eqn:F; [|discriminate].
  destruct (has_entry n s) eqn:K; [|discriminate]. intros E. injection E as <-.
  destruct (find_tok_in _ _ _ F) as [F1 F2].
  apply (goes_step x s _ None); [apply tidy_retype| |discriminate].
  intros T H. rewrite look_modes, look_retype by (eapply not_popped; eassumption).
  rewrite issued_retype. fold (entries s). rewrite <- (ve_look x s).
  apply v_type. rewrite ve_look. apply has_entry_in, K.
Qed.

Lemma rev_in {A} (l : list A) b r : rev l = b :: r -> In b l.
Proof. intros E. apply in_rev. rewrite E. left. reflexivity. Qed.
Lemma output_buffered s : incl (output s) (buffered s).
Proof.
  unfold output, buffered. intros t H. destruct (inskip s); rewrite !in_app_iff; auto.
Qed.

Lemma goes_nop x s s' : nopStreamStart s = Ret s' -> goes x s s'.
Proof.
  unfold nopStreamStart. destruct (paused s) as [n|]; [|intros E; injection E as <-; apply goes_refl].
  destruct (find_tok n (everything s)) as [p|] eqn:F; [|discriminate].
  destruct (rev (output s)) as [|b l] eqn:R; [discriminate|].
  destruct (ttype_eq_dec _ _); [|intros E; injection E as <-; apply goes_refl].
  match goal with |- context [note_if (negb ?c) _ _] => set (pair := c) end.
  intros E. injection E as <-.
  destruct (find_tok_in _ _ _ F) as [F1 F2].
  pose proof (output_buffered s b (rev_in _ _ _ R)) as B.
  destruct pair eqn:P.
  - apply (goes_step x s _ None); [intros T; do 2 apply tidy_retype; exact T| |discriminate].
    intros T H. cbn [negb note_if]. unfold resumeStream. rewrite look_paused.
    unfold pair in P. destruct (o_cat p) eqn:C1; try discriminate P. destruct (o_cat b) eqn:C2; try discriminate P.
    destruct (o_of b) as [k|] eqn:O; [|discriminate P].
    destruct (find_tok n (buffered s)) as [q|] eqn:F'; [|discriminate P].
    apply Nat.eqb_eq in P. subst k.
    destruct (find_tok_in _ _ _ F') as [F1' F2'].
    assert (N1 : ~ In n (ids (popped s))) by (eapply not_popped; eassumption).
    assert (N2 : ~ In (o_id b) (ids (popped s))) by (eapply not_popped; [exact T|exact H|exact B|reflexivity]).
    rewrite look_retype by exact N2. rewrite look_retype by exact N1.
    rewrite <- F2. apply v_nop; [| |exact C1|exact C2|rewrite O, F2; reflexivity].
    + rewrite all_look by exact T. exact F1.
    + rewrite all_look by exact T. unfold everything. apply in_or_app. right. exact B.
  - apply (goes_step x s _ (Some Fnop)); [intros T; do 2 apply tidy_retype; exact T| |].
    + intros T H. cbn [negb note_if]. unfold resumeStream. rewrite look_paused.
      assert (A2 : forall k ty l, alike l (retype1 k ty l)) by (intros; unfold alike; rewrite retype_untyped; reflexivity).
      assert (A3 : forall l, alike l (retype1 (o_id b) (TE Enop) (retype1 n (TE Enop) l))).
      { intros m. unfold alike. rewrite !retype_untyped. reflexivity. }
      assert (A4 : forall l, alike l l) by reflexivity.
      unfold look. cbn [inskip note retype_bufs set_bufs popped tb skiptb pretb skippretb].
      apply v_bad_nop; destruct (inskip s); cbn; try reflexivity; unfold rest; cbn.
      all: try exact I; try (split; [reflexivity|]; split; [reflexivity|]);
        repeat apply alike_app; first [apply A4|apply A3].
    + intros y Y. injection Y as <-. left. reflexivity.
Qed.

Lemma goes_prim x o s s' : prim o s s' -> goes x s s'.
Proof.
  intros P. destruct P.
  - eapply goes_start; eassumption.
  - eapply goes_start_ns; eassumption.
  - apply goes_end; assumption.
  - eapply goes_pop_mode; eassumption.
  - apply goes_neutral_flush; [exact I|reflexivity].
  - apply goes_modes. unfold startNewMode. rewrite issued_cons. reflexivity.
  - apply (goes_on_top x (state_set m)); [reflexivity|assumption].
  - apply (goes_on_top x (state_clear m)); [reflexivity|assumption].
  - apply (goes_on_top x (fun t => with_opened ((None, e) :: opened t) t)); [reflexivity|assumption].
  - eapply goes_dup; eassumption.
  - eapply goes_insert; eassumption.
  - eapply goes_dupdown; eassumption.
  - apply goes_flush.
  - apply goes_take; assumption.
  - eapply goes_skip_one; eassumption.
  - apply goes_complete.
  - apply goes_same; [apply look_paused|exact (fun H => H)].
  - apply goes_nop; assumption.
  - eapply goes_type; eassumption.
Qed.

(** * Look-aheads and preprocessor handling *)
Definition goes_to (x : list nat * nat) s s' : Prop :=
  tidy s -> U (look x s) ->
  tidy s' /\ exists x', (inskip s = true -> x' = x) /\
    vrun (fun f => In f (log s')) (look x s) (look x' s').

Lemma look_free x x' s : inskip s = false -> look x s = look x' s.
Proof. intros E. unfold look. rewrite E. reflexivity. Qed.

Lemma inskip_reach o s s' : reach o s s' -> inskip s = true -> inskip s' = true.
Proof.
  induction 1 as [s|s1 s2 s3 _ IH1 _ IH2|s s' P|s s' _ IH|s s' _ IH|g s s' G _ IH|s s' G _ IH]; intros E.
  - exact E.
  - auto.
  - rewrite (calm_in _ _ (calm_prim _ _ _ P)). exact E.
  - apply IH, E.
  - apply IH, E.
  - unfold at_region in G. rewrite E in G. discriminate G.
  - unfold at_region in G. rewrite E in G. discriminate G.
Qed.

Lemma open_ids_entries s : open_ids s = map fst (entries s).
Proof.
  unfold open_ids, entries, issued_in, somes. induction (concat (map opened (modes s))) as [|[[n|] e] l IH]; cbn; [reflexivity| |].
  - rewrite <- IH. reflexivity.
  - exact IH.
Qed.

Lemma log_leave s s' : incl (log s') (log (leave_region s s')).
Proof.
  unfold leave_region. eapply incl_tran; [|apply calm_note_if]. eapply incl_tran; [|apply calm_note_if]. apply incl_refl.
Qed.

Lemma look_leave x s s' : look x (leave_region s s') =
  View None (popped s' ++ tb s') (skiptb s' ++ pretb s' ++ skippretb s') (entries s') (comment_ids s') (serial s').
Proof. unfold leave_region. rewrite !look_note_if. reflexivity. Qed.

Lemma goes_reach o s s' : reach o s s' -> forall x, goes_to x s s'.
Proof.
  induction 1 as [s|s1 s2 s3 R1 IH1 R2 IH2|s s' P|s s' R IH|s s' R IH|g s s' G R IH|s s' G R IH]; intros x T H.
  - split; [exact T|]. exists x. split; [reflexivity|apply vr_refl].
  - destruct (IH1 x T H) as [T2 [x2 [X2 V2]]].
    destruct (IH2 x2 T2 (U_run _ _ _ V2 H)) as [T3 [x3 [X3 V3]]].
    split; [exact T3|]. exists x3. split.
    + intros E. rewrite X3; [apply X2, E|]. eapply inskip_reach; eassumption.
    + eapply vrun_trans; [|exact V3]. eapply vrun_mono; [|exact V2].
      intros f F. apply (drift_log _ _ (drift_reach _ _ _ R2)), F.
  - destruct (goes_prim x o s s' P T H) as [T' V]. split; [exact T'|]. exists x. split; [reflexivity|exact V].
  - destruct (IH x T H) as [T' [x' [X V]]]. split; [exact T'|]. exists x'. split; [exact X|exact V].
  - destruct (IH x T H) as [T' [x' [X V]]]. split; [exact T'|]. exists x'. split; [exact X|].
    eapply vrun_mono; [|exact V]. intros f F. right. exact F.
  - assert (N : inskip s = false) by (unfold at_region in G; destruct (inskip s); [discriminate G|reflexivity]).
    set (y := (map fst (entries s), serial s)).
    assert (L : look x s = View None (popped s ++ tb s) (skiptb s) (entries s) (comment_ids s) (serial s)).
    { unfold look. rewrite N. reflexivity. }
    destruct (T N) as [P1 P2].
    assert (L1 : look y (enter s) = View (Some (Outer (vf (look x s)) (vb (look x s)) (map fst (ve (look x s))) (vs (look x s))))
        [] [] (ve (look x s)) (vc (look x s)) (vs (look x s))).
    { rewrite L. unfold look, enter. cbn. rewrite P1, P2. reflexivity. }
    assert (VN : vr (look x s) = None) by (rewrite L; reflexivity).
    assert (V1 : vstep (match vc (look x s) with [] => None | _ => Some Fouter end) (look x s) (look y (enter s))).
    { rewrite L1. destruct (vc (look x s)) eqn:C.
      - pose proof (v_enter (look x s) VN C) as V. rewrite C in V. exact V.
      - pose proof (v_bad_enter (look x s) Fouter VN (or_introl eq_refl)) as V. rewrite C in V. exact V. }
    assert (T1 : tidy (enter s)) by discriminate.
    destruct (IH y T1 (U_step _ _ _ V1 H)) as [T' [x' [X V]]].
    specialize (X eq_refl). subst x'.
    pose proof (inskip_reach _ _ _ R eq_refl) as N'.
    split.
    { intros _. unfold leave_region, note_if. destruct (existsb _ _), (_ || _); split; reflexivity. }
    exists x. split; [congruence|].
    set (s2 := leave_region s s').
    assert (A1 : vrun (fun f => In f (log s2)) (look x s) (look y s')).
    { eapply vrun_trans; [eapply vr_step; [apply vr_refl|exact V1|]|].
      - intros f F. unfold s2, leave_region. apply (calm_log _ _ (calm_note_if _ _ _)).
        assert (Q : f = Fouter /\ is_nil (comment_ids s) = false).
        { rewrite vc_look in F. destruct (comment_ids s); [discriminate F|]. injection F as <-. split; reflexivity. }
        destruct Q as [-> Q]. apply in_note_if. rewrite Q. apply orb_true_r.
      - eapply vrun_mono; [|exact V]. intros f F. apply log_leave, F. }
    set (lab := if existsb (fun n => serial s <=? n) (open_ids s' ++ comment_ids s') then Some Fleft
                              else if existsb (fun n => negb (existsb (Nat.eqb n) (open_ids s'))) (open_ids s)
                              then Some Fouter else None).
    eapply vr_step with (f := lab); [exact A1| |].
    + unfold s2. rewrite look_leave.
      assert (L2 : look y s' = View (Some (Outer (popped s' ++ tb s') (skiptb s') (fst y) (snd y))) (pretb s') (skippretb s')
         (entries s') (comment_ids s') (serial s')) by (unfold look; rewrite N'; reflexivity).
      assert (D : lab = Some Fleft \/ ((forall n, In n (live (look y s')) -> n < snd y) /\
         (lab = Some Fouter \/ (lab = None /\ forall n, In n (fst y) -> In n (map fst (ve (look y s'))))))).
      { unfold lab. destruct (existsb (fun n => serial s <=? n) _) eqn:Q1; [left; reflexivity|right]. split.
        - intros n I. unfold live in I. rewrite ve_look, vc_look, <- open_ids_entries in I.
          destruct (Nat.lt_ge_cases n (serial s)) as [Z|Z]; [exact Z|]. exfalso.
          assert (Q2 : existsb (fun n => serial s <=? n) (open_ids s' ++ comment_ids s') = true).
          { apply existsb_exists. exists n. split; [exact I|]. apply Nat.leb_le, Z. }
          congruence.
        - destruct (existsb (fun n => negb _) (open_ids s)) eqn:Q2; [left; reflexivity|right]. split; [reflexivity|].
          cbn [fst y]. intros n I. rewrite ve_look, <- open_ids_entries. rewrite <- open_ids_entries in I.
          destruct (existsb (Nat.eqb n) (open_ids s')) eqn:Q3.
          + apply existsb_exists in Q3. destruct Q3 as [m [M1 M2]]. apply Nat.eqb_eq in M2. subst m. exact M1.
          + exfalso. assert (Q4 : existsb (fun n => negb (existsb (Nat.eqb n) (open_ids s'))) (open_ids s) = true).
            { apply existsb_exists. exists n. split; [exact I|]. rewrite Q3. reflexivity. }
            congruence. }
      pose proof (v_leave (look y s') (Outer (popped s' ++ tb s') (skiptb s') (fst y) (snd y)) lab) as V2.
      rewrite L2 in V2 at 1. specialize (V2 eq_refl D). rewrite L2 in V2 at 2 3 4 5 6. rewrite L2 in V2.
      rewrite L2. exact V2.
    + intros f F. unfold s2, leave_region. unfold lab in F.
      destruct (existsb (fun n => serial s <=? n) _) eqn:Q1.
      * injection F as <-. left. reflexivity.
      * cbn [note_if]. destruct (existsb (fun n => negb _) _) eqn:Q2; [|discriminate F].
        injection F as <-. left. reflexivity.
  - assert (N : inskip s = false) by (unfold at_region in G; destruct (inskip s); [discriminate G|reflexivity]).
    set (y := (map fst (entries s), serial s)).
    assert (L : look x s = View None (popped s ++ tb s) (skiptb s) (entries s) (comment_ids s) (serial s)).
    { unfold look. rewrite N. reflexivity. }
    destruct (T N) as [P1 P2].
    assert (V1 : vstep (Some Fmacro) (look x s) (look y (enter s))).
    { assert (L1 : look y (enter s) = View (Some (Outer (vf (look x s)) (vb (look x s)) (map fst (ve (look x s))) (vs (look x s))))
        [] [] (ve (look x s)) (vc (look x s)) (vs (look x s))).
      { rewrite L. unfold look, enter. cbn. rewrite P1, P2. reflexivity. }
      rewrite L1. apply v_bad_enter; [rewrite L; reflexivity|right; reflexivity]. }
    assert (T1 : tidy (enter s)) by discriminate.
    destruct (IH y T1 (U_step _ _ _ V1 H)) as [T' [x' [X V]]].
    split; [exact T'|]. exists x'. split; [congruence|].
    eapply vrun_trans; [eapply vr_step; [apply vr_refl|exact V1|]|].
    + intros f F. injection F as <-. left. reflexivity.
    + eapply vrun_mono; [|exact V]. intros f F. right. exact F.
Qed.

Lemma goes_travels o s s' : travels o s s' -> forall x, tidy s -> U (look x s) ->
  tidy s' /\ exists x', vrun (fun f => In f (log s')) (look x s) (look x' s').
Proof.
  induction 1 as [s|s1 s2 s3 V IH R|s1 s2 t r V IH B]; intros x T H.
  - split; [exact T|]. exists x. apply vr_refl.
  - destruct (IH x T H) as [T2 [x2 V2]].
    destruct (goes_reach _ _ _ R x2 T2 (U_run _ _ _ V2 H)) as [T3 [x3 [_ V3]]].
    split; [exact T3|]. exists x3. eapply vrun_trans; [|exact V3].
    eapply vrun_mono; [|exact V2]. intros f F. apply (drift_log _ _ (drift_reach _ _ _ R)), F.
  - destruct (IH x T H) as [T2 [x2 V2]]. split; [exact T2|]. exists x2.
    replace (look x2 (after_pop t r s2)) with (look x2 s2); [exact V2|].
    symmetry. apply look_eq; try reflexivity. cbn. rewrite B, <- app_assoc. reflexivity.
Qed.

(** The start. *)
Definition first_view : view :=
  View None [OTok 0 (TE Eunit) Kstart [] None; OTok 1 (TE Eunit) Kempty [] None] [] [(0, Eunit)] [] 2.
Lemma look_construct x src : look x (construct src) = first_view.
Proof. vm_compute. reflexivity. Qed.
Lemma tidy_construct src : tidy (construct src).
Proof. intros _. vm_compute. split; reflexivity. Qed.
Lemma U_first : U first_view.
Proof.
  constructor; cbn.
  - repeat constructor; cbn; intuition congruence.
  - intros i [<-|[<-|[]]]; lia.
  - repeat constructor. intros [].
  - intros n [<-|[]]. eexists. split; [left; reflexivity|]. repeat split.
  - tauto.
  - tauto.
  - intros t [<-|[<-|[]]]; cbn; congruence.
Qed.
Lemma K_first : K first_view.
Proof. intros t [<-|[<-|[]]]; reflexivity. Qed.

(** What a parse amounts to for the machine. *)
Lemma parse_run o rs src cs l e s : pull o rs cs (construct src) = (l, e, s) ->
  exists x b, vrun (fun f => In f (log s)) first_view (look x s) /\
    all (look x s) = OTok 0 (TE Eunit) Kstart [] None :: l ++ b /\
    (e = AtEof -> exists y b', b = y :: b' /\ o_type y = TEof).
Proof.
  intros P. destruct (construct_tb src) as [t [r [B [Q ->]]]].
  destruct (pull_front o rs cs _ _ _ _ _ _ (construct_top src) B P) as [V [_ [b [E F]]]].
  rewrite Q in E. cbn [app] in E.
  assert (H : U (look ([], 0) (construct src))) by (rewrite look_construct; apply U_first).
  destruct (goes_travels _ _ _ V ([], 0) (tidy_construct src) H) as [T [x R]].
  rewrite look_construct in R. exists x, b. split; [exact R|]. split; [|exact F].
  rewrite all_look by exact T. exact E.
Qed.

(** * C08, as written *)
Lemma kind_recovered t : kind_ok t -> recovered (outputToken t) = o_text t.
Proof.
  unfold kind_ok, outputToken, recovered. destruct (o_type t) as [[]| |[]], (o_cat t); cbn; intros H;
    try contradiction; rewrite ?app_nil_r; try reflexivity; try (rewrite H; reflexivity).
Qed.
Lemma recovered_app a b : recovered (a ++ b) = recovered a ++ recovered b.
Proof. unfold recovered. rewrite map_app, concat_app. reflexivity. Qed.
Lemma recovered_outputs l : (forall t, In t l -> kind_ok t) -> recovered (outputs l) = concat (map o_text l).
Proof.
  induction l as [|t l IH]; intros H; [reflexivity|]. unfold outputs in *. cbn [map concat].
  rewrite recovered_app, IH by (intros u X; apply H; right; exact X).
  rewrite kind_recovered by (apply H; left; reflexivity). reflexivity.
Qed.

Lemma stream_written o rs src cs l e s :
  pull o rs cs (construct src) = (l, e, s) -> ~ In Fnop (log s) -> ~ In Fmacro (log s) ->
  prefix_of (recovered (outputs l)) (source src) /\
  (e = AtEof -> recovered (outputs l) = source src).
Proof.
  intros P N1 N2. destruct (parse_run _ _ _ _ _ _ _ P) as [x [b [R [A _]]]].
  pose proof (K_run _ _ _ N1 N2 R U_first K_first) as Kv.
  rewrite recovered_outputs; [apply (stream_text o rs src cs l e s P)|].
  intros t H. apply Kv. rewrite A. right. apply in_or_app. left. exact H.
Qed.
