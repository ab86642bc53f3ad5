(** The hand-off: progress, and the theorems. *)
From Verif Require Import Base Handoff_Model Handoff_Spec Handoff_Proofs Handoff_Proofs2.

Ltac c_step := right; left; exists Caller; eexists; split; [auto|]; reflexivity.
Ltac p_step := right; left; exists Parser; unfold step, parser_step; sys.

Lemma progress {X H B} (M : machine X H B) e R w s : inv M e R w s ->
  cl s = CGone \/ (exists l s', (l = Caller \/ l = Parser) /\ step M l s = Some s') \/ (e = false /\ left_waiting s).
Proof.
  intros I. destruct I as
   [w p c x k us O Bg Q W|w p c rr hd bo te wr hu un re He C Q W|w p c q n rr hd bo te wr hu un re A En Gn Q W
   |w p c q st n rr hd bo te wr hu un re He Wt Pq Q W|w p c q rr us n hu un re Fr Rs Q W|w q rr us n hu un re Rs Q W
   |w q rr hu un re St Q W|w p rd u q rr us n un re Rs N Q W|w p c rd u q rr us n un re Wt Hd N Q W
   |w p c rd u x h b us un re Wt Qt Is N Q W|w p rd u x h b us un re Qt Is N Q W|w p u x h b us un re Qt Is N Q W
   |w p u x h b us un re Qt Is N Q W|w p c u x h b us un re Wt Qt Is N Q W|w p c u x h b us un re Wt Is N Q W
   |w p c u x h b us un re Wt Qt Sh N Q W|w p u x h b us un re Qt Sh N Q W].
  - destruct O as [->|[->| ->]]; [c_step|c_step|]. p_step. destruct Bg as [x h b us e Sh|x Nx|k x us e Nx Bg|k x b us e Nx Bg].
    + assert (Nx : next M x = OUnit h) by (inversion Sh; subst; assumption). rewrite Nx. eexists; split; [auto|reflexivity].
    + rewrite Nx. eexists; split; [auto|reflexivity].
    + rewrite Nx. eexists; split; [auto|reflexivity].
    + rewrite Nx. eexists; split; [auto|reflexivity].
  - p_step. eexists; split; [auto|reflexivity].
  - destruct A as [->|[->|[[st ->]|[[->|[->|[->| ->]]] ->]]]]; sys.
    + c_step.
    + right. left. exists Caller. unfold step, caller_step. sys. destruct p; eexists; (split; [auto|reflexivity]).
    + right. left. exists Caller. unfold step, caller_step. sys. destruct st; eexists; (split; [auto|reflexivity]).
    + c_step.
    + c_step.
    + destruct En as [n x Qn|b|b|b].
      * p_step. destruct Qn as [n x e' Nx|n x b Nx Qn|n x Nx Qn]; rewrite Nx; eexists; (split; [auto|reflexivity]).
      * p_step. eexists; split; [auto|reflexivity].
      * p_step. eexists; split; [auto|reflexivity].
      * c_step.
    + left. reflexivity.
  - destruct Pq as [[-> ->]|[-> ->]]; [p_step; eexists; split; [auto|reflexivity]|]. destruct Wt as [-> | ->]; [c_step|].
    right. right. split; [exact He|]. split; [exists st; reflexivity|reflexivity].
  - destruct Fr as [->|[->|[->|[-> ->]]]]; [c_step|c_step| |c_step]. right. left. exists Caller. unfold step, caller_step. sys. destruct p; eexists; (split; [auto|reflexivity]).
  - c_step.
  - p_step. destruct St; eexists; (split; [auto|reflexivity]).
  - right. left. exists Caller. unfold step, caller_step. sys. destruct Rs; eexists; (split; [auto|reflexivity]).
  - destruct Wt as [-> | ->]; [c_step|]. p_step. destruct Hd as [x h b us Sh Nx|x b us Qt Is|x us Qt Sh|x b us Is|x us Sh].
    + erewrite write_ok; [|reflexivity|exact N]. eexists; split; [auto|reflexivity].
    + eexists; split; [auto|reflexivity].
    + eexists; split; [auto|reflexivity].
    + inversion Is as [x0 c0 b0 b' us0 e0 Nx Cb Qt Sh|x0 c0 Nx]; subst; rewrite Nx; eexists; (split; [auto|reflexivity]).
    + destruct Sh as [x Nx Qt|x Nx|x h b us e Nx Qt Is]; rewrite Nx; try (eexists; split; [auto|reflexivity]).
      erewrite write_ok; [|reflexivity|exact N]. eexists; split; [auto|reflexivity].
  - destruct Wt as [-> | ->]; [c_step|]. p_step. eexists; split; [auto|reflexivity].
  - right. left. exists Caller. unfold step, caller_step. sys. destruct rd; eexists; (split; [auto|reflexivity]).
  - c_step.
  - c_step.
  - destruct Wt as [-> | ->]; [c_step|]. p_step. eexists; split; [auto|reflexivity].
  - destruct Wt as [-> | ->]; [c_step|]. p_step. inversion Is as [x0 c0 b0 b' us0 e0 Nx Cb Qt Sh|x0 c0 Nx]; subst; rewrite Nx; eexists; (split; [auto|reflexivity]).
  - destruct Wt as [-> | ->]; [c_step|]. p_step. eexists; split; [auto|reflexivity].
  - right. left. exists Caller. unfold step, caller_step. sys. rewrite N. eexists; split; [auto|reflexivity].
Qed.

Lemma inv_results {X H B} (M : machine X H B) e R w s : inv M e R w s ->
  prefix_of (results s) R /\ fault s = false /\ (cl s = CGone -> results s = R /\ pa s = PExit).
Proof.
  intros I. destruct I as
   [w p c x k us O Bg Q W|w p c rr hd bo te wr hu un re He C Q W|w p c q n rr hd bo te wr hu un re A En Gn Q W
   |w p c q st n rr hd bo te wr hu un re He Wt Pq Q W|w p c q rr us n hu un re Fr Rs Q W|w q rr us n hu un re Rs Q W
   |w q rr hu un re St Q W|w p rd u q rr us n un re Rs N Q W|w p c rd u q rr us n un re Wt Hd N Q W
   |w p c rd u x h b us un re Wt Qt Is N Q W|w p rd u x h b us un re Qt Is N Q W|w p u x h b us un re Qt Is N Q W
   |w p u x h b us un re Qt Is N Q W|w p c u x h b us un re Wt Qt Is N Q W|w p c u x h b us un re Wt Is N Q W
   |w p c u x h b us un re Wt Qt Sh N Q W|w p u x h b us un re Qt Sh N Q W]; sys; split; try (rewrite Q; eexists; reflexivity); try (subst re; exists []; apply app_nil_r);
   try (exists R; reflexivity); (split; [reflexivity|]); intros F; subst; try discriminate.
  - destruct O as [F|[F|F]]; discriminate F.
  - destruct C as [[F _]|[st [F|F]]]; discriminate F.
  - split; [|apply Gn; reflexivity]. destruct A as [F|[F|[[st F]|[_ ->]]]]; try discriminate F. cbn [owed reads app]. symmetry. apply app_nil_r.
  - destruct Wt as [F|F]; discriminate F.
  - destruct Fr as [F|[F|[F|[F _]]]]; discriminate F.
  - destruct Wt as [F|F]; discriminate F.
  - destruct Wt as [F|F]; discriminate F.
  - destruct Wt as [F|F]; discriminate F.
  - destruct Wt as [F|F]; discriminate F.
  - destruct Wt as [F|F]; discriminate F.
Qed.

Lemma calm_inv {X H B} (M : machine X H B) e R ls : calm ls -> forall w s s', inv M e R w s -> steps M ls s = Some s' ->
  exists w', inv M e R w' s' /\ length ls + w' <= w.
Proof.
  induction 1 as [|l ls L F IH]; intros w s s' I E; cbn [steps] in E; [injection E as <-; exists w; split; [exact I|cbn; lia]|].
  destruct (step M l s) as [s1|] eqn:S; [|discriminate E].
  assert (K : exists w1, w1 < w /\ inv M e R w1 s1) by (destruct L as [-> | ->]; cbn [step] in S; [exact (caller_inv _ _ _ _ _ _ I S)|exact (parser_inv _ _ _ _ _ _ I S)]).
  destruct K as [w1 [Lt I1]]. destruct (IH w1 s1 s' I1 E) as [w' [I' Le]]. exists w'. split; [exact I'|]. cbn [length]. lia.
Qed.

Lemma open_inv {X H B} (M : machine X H B) k x us e ops : begins M k x us e ->
  inv M e (reads us ops) (12 * length ops + 8 * length us + k + 21) (open x ops).
Proof. intros Bg. apply (i_open _ _ _ _ _ _ _ k us); [left; reflexivity|exact Bg|reflexivity|]. cbn [cw]. unfold G. lia. Qed.

Lemma delivered {X H B} (M : machine X H B) k x us e ops ls s : begins M k x us e -> calm ls -> steps M ls (open x ops) = Some s ->
  prefix_of (results s) (reads us ops) /\ fault s = false /\ (cl s = CGone -> results s = reads us ops /\ pa s = PExit).
Proof. intros Bg C E. destruct (calm_inv _ _ _ _ C _ _ _ (open_inv _ _ _ _ _ _ Bg) E) as [w [I _]]. exact (inv_results _ _ _ _ _ I). Qed.
Lemma not_stuck {X H B} (M : machine X H B) k x us ops ls s : begins M k x us true -> calm ls -> steps M ls (open x ops) = Some s ->
  cl s = CGone \/ exists l s', (l = Caller \/ l = Parser) /\ step M l s = Some s'.
Proof.
  intros Bg C E. destruct (calm_inv _ _ _ _ C _ _ _ (open_inv _ _ _ _ _ _ Bg) E) as [w [I _]].
  destruct (progress _ _ _ _ _ I) as [G'|[S|[F _]]]; [left; exact G'|right; exact S|discriminate F].
Qed.
Lemma stuck_only_lost {X H B} (M : machine X H B) k x us e ops ls s : begins M k x us e -> calm ls -> steps M ls (open x ops) = Some s ->
  cl s = CGone \/ (exists l s', (l = Caller \/ l = Parser) /\ step M l s = Some s') \/ left_waiting s.
Proof.
  intros Bg C E. destruct (calm_inv _ _ _ _ C _ _ _ (open_inv _ _ _ _ _ _ Bg) E) as [w [I _]].
  destruct (progress _ _ _ _ _ I) as [G'|[S|[_ F]]]; auto.
Qed.
Lemma bounded {X H B} (M : machine X H B) k x us e ops ls s : begins M k x us e -> calm ls -> steps M ls (open x ops) = Some s ->
  length ls <= 12 * length ops + 8 * length us + k + 21.
Proof. intros Bg C E. destruct (calm_inv _ _ _ _ C _ _ _ (open_inv _ _ _ _ _ _ Bg) E) as [w [_ L]]. lia. Qed.
