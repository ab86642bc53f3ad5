(** Every token with text that the parser delivers is a token of the source. *)
From Verif Require Import Base Text_Model Text_Spec Parser_Model Parser_Spec Parser_Proofs Parser_Proofs2 Parser_Proofs3 Parser_View Parser_View2 Parser_View3.

Definition from (l : list ltok) (t : otok) : Prop :=
  match o_type t with TL k => exists x, In x l /\ l_type x = k /\ l_text x = o_text t | _ => True end.
Record tame (s s' : ps) : Prop :=
  { tame_in : incl (input s') (input s);
    tame_all : forall t, In t (everything s') -> In t (everything s) \/ from (input s) t }.
Lemma tame_refl s : tame s s.
Proof. constructor; [apply incl_refl|]. intros t I. left. exact I. Qed.
Lemma from_incl a b t : incl a b -> from a t -> from b t.
Proof. unfold from. destruct (o_type t); auto. intros I (x & J & K). exists x. split; [apply I, J|exact K]. Qed.
Lemma tame_trans a b c : tame a b -> tame b c -> tame a c.
Proof.
  intros [A1 A2] [B1 B2]. constructor; [eapply incl_tran; eassumption|]. intros t I.
  destruct (B2 t I) as [J|J]; [apply A2, J|right]. eapply from_incl; eassumption.
Qed.
Lemma tame_same s s' : input s' = input s -> everything s' = everything s -> tame s s'.
Proof. intros A B. constructor; [rewrite A; apply incl_refl|]. rewrite B. auto. Qed.
Lemma tame_note b f s : tame s (note_if b f s).
Proof. destruct b; apply tame_same; reflexivity. Qed.
Lemma tame_modes x s : tame s (set_modes x s).
Proof. apply tame_same; reflexivity. Qed.
Lemma tame_comments x s : tame s (set_comments x s).
Proof. apply tame_same; reflexivity. Qed.
Lemma tame_paused x s : tame s (set_paused x s).
Proof. apply tame_same; reflexivity. Qed.
Lemma tame_flush s : tame s (flushSkip s).
Proof.
  constructor; [rewrite input_flush; apply incl_refl|]. intros t I. left. revert I. unfold everything, buffered, flushSkip, set_skip, set_output, output, skip.
  destruct (inskip s) eqn:E; cbn [inskip set_bufs popped tb skiptb pretb skippretb]; rewrite ?E; rewrite ?in_app_iff; cbn [In]; tauto.
Qed.
Lemma tame_output ty k x w s : (guessing s = 0 -> from (input s) (OTok (serial s) ty k x w)) -> tame s (pushToken ty k x w s).
Proof.
  intros H. constructor; [rewrite input_pushToken; apply incl_refl|]. intros t. unfold pushToken. destruct (0 <? guessing s) eqn:G; [auto|].
  apply Nat.ltb_ge in G. assert (F : OTok (serial s) ty k x w = t -> from (input s) t) by (intros <-; apply H; lia). clear H G. unfold everything, buffered, set_output, output.
  destruct (inskip s); cbn [set_serial set_bufs popped tb skiptb pretb skippretb]; rewrite !in_app_iff; cbn [In]; tauto.
Qed.
Lemma tame_skip ty k x w s : (guessing s = 0 -> from (input s) (OTok (serial s) ty k x w)) -> tame s (pushSkipToken ty k x w s).
Proof.
  intros H. constructor; [rewrite input_pushSkip; apply incl_refl|]. intros t. unfold pushSkipToken. destruct (0 <? guessing s) eqn:G; [auto|].
  apply Nat.ltb_ge in G. assert (F : OTok (serial s) ty k x w = t -> from (input s) t) by (intros <-; apply H; lia). clear H G. unfold everything, buffered, set_skip, skip.
  destruct (inskip s); cbn [set_serial set_bufs popped tb skiptb pretb skippretb]; rewrite !in_app_iff; cbn [In]; tauto.
Qed.
Lemma tame_flushing ty k x w s : (guessing s = 0 -> from (input s) (OTok (serial s) ty k x w)) -> tame s (pushTokenFlush ty k x w s).
Proof.
  intros H. unfold pushTokenFlush. destruct (0 <? guessing s) eqn:G; [apply tame_refl|]. eapply tame_trans; [apply tame_flush|]. apply tame_output.
  rewrite flush_guessing, flush_serial, input_flush. exact H.
Qed.
Lemma tag_from l i e k w : from l (OTok i (TE e) k [] w).
Proof. exact I. Qed.
Lemma tame_drop s : tame s (drop1 s).
Proof. constructor; [|auto]. cbn. intros x X. destruct (input s); [destruct X|right; exact X]. Qed.
Lemma tame_retype n e s : tame s (retype_bufs n (TE e) s).
Proof.
  constructor; [apply incl_refl|]. intros t I.
  assert (X : forall l, In t (retype1 n (TE e) l) -> In t l \/ from (input s) t).
  { intros l J. apply in_map_iff in J as (u & <- & J). destruct (o_id u =? n); [right; exact Logic.I|left; exact J]. }
  revert I. unfold everything, buffered. cbn [retype_bufs set_bufs popped tb skiptb pretb skippretb]. rewrite !in_app_iff.
  intros [I|[I|[I|[I|I]]]]; [tauto| | | |]; apply X in I; tauto.
Qed.
Lemma tame_pop_comment s n s' : pop_comment s = Some (n, s') -> tame s s'.
Proof.
  unfold pop_comment. destruct (comments s); [discriminate|]. intros E. injection E as _ <-.
  eapply tame_trans; [apply tame_note|]. eapply tame_trans; [apply tame_note|apply tame_comments].
Qed.
Lemma tame_on_top f s s' : on_top f s = Ret s' -> tame s s'.
Proof. unfold on_top. destruct (modes s); [discriminate|]. intros E. injection E as <-. apply tame_modes. Qed.
Lemma tame_end s : tame s (endElement s).
Proof.
  unfold endElement. eapply tame_trans; [|apply tame_note]. unfold end_element. destruct (modes s) as [|t r]; [apply tame_refl|].
  destruct (opened t) as [|[o e] oo]; [apply tame_refl|]. cbv zeta. destruct (N.eqb _ 0); (eapply tame_trans; [|apply tame_modes]).
  - eapply tame_trans; [apply tame_note|]. eapply tame_trans; [apply tame_note|]. apply tame_output. intros _. apply tag_from.
  - eapply tame_trans; [apply tame_note|]. eapply tame_trans; [apply tame_output; intros _; apply tag_from|]. apply tame_output. intros _. apply tag_from.
Qed.
Lemma from_head l t i k w : In t l -> from l (OTok i (TL (l_type t)) k (l_text t) w).
Proof. intros I. exists t. repeat split. exact I. Qed.
Lemma tame_eat t r k w s : input s = t :: r -> tame s (drop1 (pushSkipToken (TL (l_type t)) k (l_text t) w s)).
Proof. intros N. eapply tame_trans; [|apply tame_drop]. apply tame_skip. intros _. apply from_head. rewrite N. left. reflexivity. Qed.
Lemma tame_skip_one t r s s' : input s = t :: r -> skip_one t s = Ret s' -> tame s s'.
Proof.
  intros N H. unfold skip_one in H.
  assert (EAT : forall a k w, input a = t :: r -> tame a (drop1 (pushSkipToken (TL (l_type t)) k (l_text t) w a))) by (intros; eapply tame_eat; eassumption).
  assert (TAG : forall a e k w, tame a (pushSkipToken (TE e) k [] w a)) by (intros; apply tame_skip; intros _; apply tag_from).
  destruct (l_type t) as [n| | | |c|c| | | |n] eqn:L; try (injection H as <-; apply EAT, N).
  - injection H as <-. eapply tame_trans; [apply TAG|]. eapply tame_trans; [apply EAT; rewrite input_pushSkip; exact N|]. apply TAG.
  - injection H as <-. eapply tame_trans; [apply TAG|]. eapply tame_trans; [apply EAT; rewrite input_pushSkip; exact N|]. apply tame_comments.
  - destruct (pop_comment s) as [[n s1]|] eqn:PC; [|discriminate H]. pose proof (tame_pop_comment _ _ _ PC) as T1.
    pose proof (input_pop_comment _ _ _ PC) as N1. rewrite N in N1. eapply tame_trans; [exact T1|].
    assert (LATE : tame s1 (pushSkipToken (TE (Ecomment c)) Kend [] n (drop1 (pushSkipToken (TL (Lclose c)) Ktext (l_text t) None s1)))).
    { eapply tame_trans; [apply EAT; exact N1|apply TAG]. }
    assert (EARLY : tame s1 (drop1 (pushSkipToken (TL (Lclose c)) Ktext (l_text t) None (pushSkipToken (TE (Ecomment c)) Kend [] n s1)))).
    { eapply tame_trans; [apply TAG|apply EAT; rewrite input_pushSkip; exact N1]. }
    destruct c; try destruct (ends_line (l_text t)); injection H as <-; assumption.
Qed.
Lemma tame_take s : tame s (take s).
Proof.
  unfold take. destruct (input s) as [|t r] eqn:N.
  - eapply tame_trans; [apply tame_note|]. apply tame_flushing. intros _. exact I.
  - destruct (is_skip_tok _ _); [eapply tame_eat, N|]. eapply tame_trans; [|apply tame_drop]. apply tame_flushing. intros _. apply from_head. rewrite N. left. reflexivity.
Qed.
Lemma tame_prim o s s' : prim o s s' -> tame s s'.
Proof.
  intros P. destruct P.
  - unfold startElement in H. destruct (on_top _ s) eqn:E; cbn [bind] in H; try discriminate H. injection H as <-.
    eapply tame_trans; [eapply tame_on_top, E|]. eapply tame_trans; [|apply tame_note]. apply tame_flushing. intros _. apply tag_from.
  - unfold startNoSkipElement in H. destruct (on_top _ s) eqn:E; cbn [bind] in H; try discriminate H. injection H as <-.
    eapply tame_trans; [eapply tame_on_top, E|]. eapply tame_trans; [|apply tame_note]. apply tame_output. intros _. apply tag_from.
  - apply tame_end.
  - apply tame_modes.
  - apply tame_flushing. intros _. apply tag_from.
  - apply tame_modes.
  - eapply tame_on_top, H.
  - eapply tame_on_top, H.
  - eapply tame_on_top, H.
  - unfold dupMode in H. destruct (modes s); [discriminate H|]. injection H as <-. apply tame_modes.
  - unfold insertModeAfter in H. destruct (cut _ _) as [[? ?]|]; [|discriminate H]. injection H as <-. apply tame_modes.
  - unfold dupDownOverMode in H. destruct (cut _ _) as [[? [|? ?]]|]; try discriminate H. injection H as <-. apply tame_modes.
  - apply tame_flush.
  - apply tame_take.
  - eapply tame_skip_one; eassumption.
  - unfold completeSkip. destruct (pop_comment s) as [[n s1]|] eqn:PC; [|apply tame_refl]. eapply tame_trans; [eapply tame_pop_comment, PC|].
    apply tame_skip. intros _. apply tag_from.
  - apply tame_paused.
  - unfold nopStreamStart in H. destruct (paused s) as [n|]; [|injection H as <-; apply tame_refl].
    destruct (find_tok n (everything s)) as [p|]; [|discriminate H]. destruct (rev (output s)) as [|b l]; [discriminate H|].
    destruct (ttype_eq_dec _ _); injection H as <-; [|apply tame_refl].
    eapply tame_trans; [|apply tame_paused]. eapply tame_trans; [|apply tame_note]. eapply tame_trans; apply tame_retype.
  - unfold setType in H. destruct (find_tok _ _); [|discriminate H]. destruct (has_entry _ _); [|discriminate H]. injection H as <-.
    eapply tame_trans; [apply tame_retype|apply tame_modes].
Qed.
(** the invariant *)
Definition sourced (src : list ltok) (s : ps) : Prop := incl (input s) src /\ forall t, In t (everything s) -> from src t.
Lemma sourced_tame src s s' : tame s s' -> sourced src s -> sourced src s'.
Proof.
  intros [A B] [C D]. split; [eapply incl_tran; eassumption|]. intros t I. destruct (B t I) as [J|J]; [apply D, J|]. eapply from_incl; eassumption.
Qed.
Lemma everything_leave_in t n s : In t (everything (leave_region n s)) -> In t (everything s).
Proof.
  unfold leave_region. assert (A : forall b f u, everything (note_if b f u) = everything u) by (intros [] f u; reflexivity). rewrite !A.
  unfold everything, buffered. cbn [set_bufs popped tb skiptb pretb skippretb]. rewrite ?app_nil_r, ?in_app_iff. cbn [In]. tauto.
Qed.
Lemma sourced_reach src o s s' : reach o s s' -> sourced src s -> sourced src s'.
Proof.
  induction 1 as [s|s1 s2 s3 R1 IH1 R2 IH2|s s' P|s s' R IH|s s' R IH|g s s' G R IH|s s' G R IH]; intros S0.
  - exact S0.
  - apply IH2, IH1, S0.
  - eapply sourced_tame; [eapply tame_prim, P|exact S0].
  - destruct (IH S0) as (_ & B). split; [apply S0|exact B].
  - exact (IH S0).
  - destruct (IH S0) as (A & B). split.
    + unfold leave_region. rewrite !input_note_if. exact A.
    + intros t J. apply B, (everything_leave_in t s), J.
  - exact (IH S0).
Qed.
Lemma sourced_travels src o s s' : travels o s s' -> sourced src s -> sourced src s'.
Proof.
  induction 1 as [s|s1 s2 s3 V IH R|s1 s2 t r V IH B]; intros S0; [exact S0| |].
  - eapply sourced_reach; [exact R|apply IH, S0].
  - destruct (IH S0) as (A & C). split; [exact A|]. intros u J. apply C. rewrite <- (everything_pop t r s2 B). exact J.
Qed.
Lemma sourced_construct src : sourced src (construct src).
Proof.
  assert (E : everything (construct src) = [OTok 0 (TE Eunit) Kstart [] None; OTok 1 (TE Eunit) Kempty [] None]) by (vm_compute; reflexivity).
  split; [apply incl_refl|]. rewrite E. intros t [<-|[<-|[]]]; exact I.
Qed.
Lemma stream_from o rs src cs l e s : pull o rs cs (construct src) = (l, e, s) -> forall t, In t l -> from src t.
Proof.
  intros P t J. destruct (construct_tb src) as [t0 [r [B [Q ->]]]].
  destruct (pull_front o rs cs _ _ _ _ _ _ (construct_top src) B P) as [V [_ [b [E _]]]].
  destruct (sourced_travels src _ _ _ V (sourced_construct src)) as (_ & F). apply F. rewrite E, Q. cbn [app]. right. apply in_or_app. left. exact J.
Qed.
