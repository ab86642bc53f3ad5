(** The hand-off: the parsing thread's steps, progress, and the theorems. *)
From Verif Require Import Base Handoff_Model Handoff_Spec Handoff_Proofs.

Lemma write_ok {X H B} f (p : list op) c (q : parser X H) fl u un (re : list (result H B)) old :
  reading_unit c = Some u -> nth_error un u = Some old ->
  write_unit f (Sys p c q fl (Some u) un re false) = Sys p c q fl (Some u) (put u (f old) un) re false.
Proof. intros Rd N. unfold write_unit. cbn [hunit cl units fault]. rewrite Rd, N, Nat.eqb_refl. reflexivity. Qed.
Lemma reading_hdr c rd u : waits c (Hdr rd u) -> reading_unit c = Some u.
Proof. intros [-> | ->]; reflexivity. Qed.
Lemma reading_bdy c u : waits c (Bdy u) -> reading_unit c = Some u.
Proof. intros [-> | ->]; reflexivity. Qed.

Lemma opening_pending c : opening c -> c = CNew /\ true = true \/ (exists st, waits c st).
Proof. intros [->|[->| ->]]; [left; auto|right; exists Ctor; left; reflexivity|right; exists Ctor; right; reflexivity]. Qed.
Lemma opening_owed {H B} c : opening c -> @owed H B c = [].
Proof. intros [->|[->| ->]]; reflexivity. Qed.
Lemma waits_hdr_owed {H B} c rd u : waits c (Hdr rd u) -> @owed H B c = [nothing rd].
Proof. intros [-> | ->]; reflexivity. Qed.
Lemma waits_bdy_owed {H B} c u : waits c (Bdy u) -> @owed H B c = [RNull].
Proof. intros [-> | ->]; reflexivity. Qed.
Lemma reads_nil {H B} rd p : @reads H B [] (opof rd :: p) = nothing rd :: reads [] p.
Proof. destruct rd; reflexivity. Qed.

Lemma parser_inv {X H B} (M : machine X H B) e R w s s' : inv M e R w s -> parser_step M s = Some s' -> exists w', w' < w /\ inv M e R w' s'.
Proof.
  intros I E. destruct I as
   [w p c x k us O Bg Q W|w p c rr hd bo te wr hu un re He C Q W|w p c q n rr hd bo te wr hu un re A En Gn Q W
   |w p c q st n rr hd bo te wr hu un re He Wt Pq Q W|w p c q rr us n hu un re Fr Rs Q W|w q rr us n hu un re Rs Q W
   |w q rr hu un re St Q W|w p rd u q rr us n un re Rs N Q W|w p c rd u q rr us n un re Wt Hd N Q W
   |w p c rd u x h b us un re Wt Qt Is N Q W|w p rd u x h b us un re Qt Is N Q W|w p u x h b us un re Qt Is N Q W
   |w p u x h b us un re Qt Is N Q W|w p c u x h b us un re Wt Qt Is N Q W|w p c u x h b us un re Wt Is N Q W
   |w p c u x h b us un re Wt Qt Sh N Q W|w p u x h b us un re Qt Sh N Q W]; unfold parser_step in E; sys.
  - destruct Bg as [x h b us e Sh|x Nx|k x us e Nx Bg|k x b us e Nx Bg].
    + assert (Nx : next M x = OUnit h) by (inversion Sh; subst; assumption). rewrite Nx in E. destruct O as [->|[->| ->]]; sys; try discriminate E; injection E as <-; sys;
        (eexists; split; [|apply (i_rest _ _ _ _ _ _ _ false ((h, b) :: us) (G ((h, b) :: us))); [unfold free_; auto|constructor; assumption|exact Q|apply Nat.le_refl]]; weigh).
    + rewrite Nx in E. injection E as <-. eexists. split; [|apply i_pending; [reflexivity|apply opening_pending, O|rewrite (opening_owed _ O); exact Q|apply Nat.le_refl]]. weigh.
    + rewrite Nx in E. injection E as <-. eexists. split; [|apply (i_open _ _ _ _ _ _ _ k us); [exact O|exact Bg|exact Q|apply Nat.le_refl]]. weigh.
    + rewrite Nx in E. injection E as <-. eexists. split; [|apply (i_open _ _ _ _ _ _ _ k us); [exact O|exact Bg|exact Q|apply Nat.le_refl]]. weigh.
  - injection E as <-. destruct C as [[-> ->]|[st Wt]].
    + eexists. split; [|apply (i_over _ _ _ _ _ _ _ 1); [unfold at_rest; auto|constructor|discriminate|exact Q|apply Nat.le_refl]]. weigh.
    + eexists. split; [|apply (i_lost _ _ _ _ _ _ _ st 1); [exact He|exact Wt|auto|exact Q|apply Nat.le_refl]]. weigh.
  - assert (K : locked (Sys p c q (Flags true rr hd bo te wr) hu un re false) = false /\
                wake_caller (Sys p c q (Flags true rr hd bo te wr) hu un re false) = Sys p c q (Flags true rr hd bo te wr) hu un re false).
    { destruct A as [->|[->|[[st ->]|[[->|[->|[->| ->]]] ->]]]]; split; reflexivity. }
    destruct K as [K1 K2]. destruct En as [n x Qn|b|b|b].
    + assert (Gc : c <> CGone) by (intros F; discriminate (Gn F)). destruct Qn as [n x e' Nx|n x b Nx Qn|n x Nx Qn]; rewrite Nx in E.
      * injection E as <-. destruct e'; (eexists; split; [|eapply i_over; [exact A|econstructor|intros F; destruct (Gc F)|exact Q|apply Nat.le_refl]]; weigh).
      * destruct te; injection E as <-; sys; (eexists; split; [|eapply i_over; [exact A|constructor; apply Qn|intros F; destruct (Gc F)|exact Q|apply Nat.le_refl]]; weigh).
      * sys. assert (L : (match c with CHold _ => true | _ => false end) = false) by exact K1. rewrite L in E.
        assert (L2 : match c with
              | CWait st => Sys p (CBack st) (PRun x) (Flags true rr hd false te wr) hu un re false
              | _ => Sys p c (PRun x) (Flags true rr hd false te wr) hu un re false end = Sys p c (PRun x) (Flags true rr hd false te wr) hu un re false) by exact K2.
        rewrite L2 in E. injection E as <-. sys. eexists. split; [|eapply i_over; [exact A|constructor; apply Qn|intros F; destruct (Gc F)|exact Q|apply Nat.le_refl]]. weigh.
    + injection E as <-. eexists. split; [|eapply i_over; [exact A|econstructor|intros F; discriminate (Gn F)|exact Q|apply Nat.le_refl]]. weigh.
    + unfold wake_caller in K2. sys. assert (L2 : match c with
              | CWait st => Sys p (CBack st) PDoneNotify (Flags true rr hd b te wr) hu un re false
              | _ => Sys p c PDoneNotify (Flags true rr hd b te wr) hu un re false end = Sys p c PDoneNotify (Flags true rr hd b te wr) hu un re false) by exact K2.
      rewrite L2 in E. injection E as <-. sys. eexists. split; [|eapply i_over; [exact A|econstructor|reflexivity|exact Q|apply Nat.le_refl]]. weigh.
    + discriminate E.
  - destruct Pq as [[-> ->]|[-> ->]]; [|discriminate E]. injection E as <-. destruct Wt as [-> | ->]; sys.
    + eexists. split; [|apply (i_lost _ _ _ _ _ _ _ st 0); [exact He|unfold waits; auto|auto|exact Q|apply Nat.le_refl]]. weigh.
    + eexists. split; [|apply (i_over _ _ _ _ _ _ _ 0); [unfold at_rest; right; right; left; exists st; reflexivity|constructor|reflexivity|rewrite Q; destruct st; reflexivity|apply Nat.le_refl]]. weigh.
  - destruct Rs; discriminate E.
  - destruct Rs; discriminate E.
  - destruct St as [x h Qt|x Qt|x Qt]; injection E as <-; sys;
      (eexists; split; [|eapply i_over; [unfold at_rest; auto 8|constructor; apply Qt|discriminate|rewrite Q; symmetry; apply app_nil_r|apply Nat.le_refl]]; weigh).
  - destruct Rs; discriminate E.
  - pose proof (reading_hdr _ _ _ Wt) as Rd. destruct Hd as [x h b us Sh Nx|x b us Qt Is|x us Qt Sh|x b us Is|x us Sh].
    + assert (K : (forall c, quiet M 2 (after M x c true)) /\ (forall c, inside M (after M x c false) c b us e)) by (inversion Sh; subst; auto). destruct K as [Qt Is].
      rewrite (write_ok _ _ _ _ _ _ _ _ _ Rd N) in E. sys. injection E as <-.
      eexists. split; [|apply (i_header _ _ _ _ _ _ rd u x h b us); [exact Wt|exact Qt|exact Is|exact (nth_put _ _ _ _ N)|exact Q|apply Nat.le_refl]]. weigh.
    + injection E as <-. eexists. split; [|apply (i_run _ _ _ _ _ _ rd u _ _ us (G us + 5)); [exact Wt|apply (head_skip _ _ _ b), Is|exact N|exact Q|apply Nat.le_refl]]. weigh.
    + injection E as <-. eexists. split; [|apply (i_run _ _ _ _ _ _ rd u _ _ us (G us)); [exact Wt|apply head_next, Sh|exact N|exact Q|apply Nat.le_refl]]. weigh.
    + inversion Is as [x0 c0 b0 b' us0 e0 Nx Cb Qt Sh|x0 c0 Nx]; subst; rewrite Nx in E; injection E as <-.
      * eexists. split; [|apply (i_run _ _ _ _ _ _ rd u _ _ us (G us)); [exact Wt|apply head_next, Sh|exact N|reflexivity|apply Nat.le_refl]]. weigh.
      * eexists. split; [|apply i_pending; [reflexivity|right; eexists; exact Wt| |apply Nat.le_refl]]; [weigh|]. rewrite (waits_hdr_owed _ _ _ Wt). destruct rd; reflexivity.
    + destruct Sh as [x Nx Qt|x Nx|x h b us e Nx Qt Is]; rewrite Nx in E.
      * destruct Wt as [-> | ->]; sys; [discriminate E|]. injection E as <-. sys.
        eexists. split; [|eapply i_over; [unfold at_rest; right; right; left; eexists; reflexivity|constructor; apply Qt|discriminate| |apply Nat.le_refl]]; [weigh|]. rewrite Q. destruct rd; reflexivity.
      * injection E as <-. eexists. split; [|apply i_pending; [reflexivity|right; eexists; exact Wt| |apply Nat.le_refl]]; [weigh|]. rewrite Q, (waits_hdr_owed _ _ _ Wt). destruct rd; reflexivity.
      * rewrite (write_ok _ _ _ _ _ _ _ _ _ Rd N) in E. sys. injection E as <-.
        eexists. split; [|apply (i_header _ _ _ _ _ _ rd u x h b us); [exact Wt|exact Qt|exact Is|exact (nth_put _ _ _ _ N)|exact Q|apply Nat.le_refl]]. weigh.
  - destruct Wt as [-> | ->]; sys; [discriminate E|]. injection E as <-. sys.
    eexists. split; [|apply (i_got_header _ _ _ _ _ rd u x h b us); [exact Qt|exact Is|exact N|exact Q|apply Nat.le_refl]]. weigh.
  - discriminate E.
  - discriminate E.
  - discriminate E.
  - injection E as <-. eexists. split; [|apply (i_body_run _ _ _ _ _ _ u _ h b us); [exact Wt|apply Is|exact N|exact Q|apply Nat.le_refl]]. weigh.
  - pose proof (reading_bdy _ _ Wt) as Rd. assert (C : exists c', c' = true /\ inside M x c' b us e) by (exists true; auto). clear Is. destruct C as [c' [Hc Is]]. destruct Is as [x c' b b' us e Nx Cb Qt Sh|x c' Nx]; rewrite Nx in E.
    + rewrite (write_ok _ _ _ _ _ _ _ _ _ Rd N) in E. sys. injection E as <-. rewrite (Cb Hc). cbn [fst].
      eexists. split; [|apply (i_tail _ _ _ _ _ _ u x h b us); [exact Wt|exact Qt|exact Sh|exact (nth_put _ _ _ _ N)|exact Q|apply Nat.le_refl]]. weigh.
    + injection E as <-. eexists. split; [|apply i_pending; [reflexivity|right; eexists; exact Wt| |apply Nat.le_refl]]; [weigh|]. rewrite Q, (waits_bdy_owed _ _ Wt). reflexivity.
  - destruct Wt as [-> | ->]; sys; [discriminate E|]. injection E as <-. sys.
    eexists. split; [|apply (i_got_body _ _ _ _ _ u x h b us); [exact Qt|exact Sh|exact N|exact Q|apply Nat.le_refl]]. weigh.
  - discriminate E.
Qed.
