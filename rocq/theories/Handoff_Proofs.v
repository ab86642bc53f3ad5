(** The hand-off: invariant over all interleavings without spurious wake-ups. *)
From Verif Require Import Base Handoff_Model Handoff_Spec.

Definition G {H B : Type} (us : list (H * option B)) : nat := 8 * length us + 12.
Definition opening c := c = CNew \/ c = CHold Ctor \/ c = CWait Ctor.
Definition free_ c (p : list op) := c = CNew \/ c = CBack Ctor \/ c = CIdle \/ (c = CStop /\ p = []).
Definition waits c st := c = CHold st \/ c = CWait st.
(** What is still owed to the call in progress when nothing comes any more. *)
Definition owed {H B : Type} (c : caller) : list (result H B) :=
  match c with
  | CCall (Hdr r _) | CHold (Hdr r _) | CWait (Hdr r _) | CBack (Hdr r _) => [nothing r]
  | CBody _ | CCall (Bdy _) | CHold (Bdy _) | CWait (Bdy _) | CBack (Bdy _) => [RNull]
  | _ => []
  end.
Definition opof (rd : bool) := if rd then Read else Skip.
Definition at_rest c (p : list op) := c = CNew \/ c = CIdle \/ (exists st, c = CBack st) \/
  ((c = CStop \/ c = CNotify \/ c = CJoin \/ c = CGone) /\ p = []).

Definition sw st := match st with Ctor => 1 | Hdr _ _ => 6 | Bdy _ => 1 end.
Definition cw (c : caller) (p : list op) : nat :=
  match c with
  | CGone => 0 | CJoin => 1 | CNotify => 2 | CStop => 3
  | CIdle => 4 + 12 * length p
  | CBack st => 4 + 12 * length p + sw st
  | CWait st => 5 + 12 * length p + sw st
  | CHold st => 6 + 12 * length p + sw st
  | CCall st => 7 + 12 * length p + sw st
  | CBody _ => 9 + 12 * length p
  | CNew => 8 + 12 * length p
  end.

(** The parsing thread paused: what it will show next. *)
Inductive resting {X H B} (M : machine X H B) (e : bool) : parser X H -> bool -> list (H * option B) -> nat -> Prop :=
| rest_root x h b us : shows M x ((h, b) :: us) e -> next M x = OUnit h -> resting M e (PRootWait x h false) false ((h, b) :: us) (G ((h, b) :: us))
| rest_head x b us : (forall c, quiet M 2 (after M x c true)) -> (forall c, inside M (after M x c false) c b us e) ->
    resting M e (PHeadWait x false) true us (G us + 6)
| rest_tail x us : quiet M 2 (after M x false true) -> shows M (after M x false false) us e ->
    resting M e (PTailWait x false) true us (G us + 3).
Inductive heading {X H B} (M : machine X H B) (e : bool) : parser X H -> bool -> list (H * option B) -> nat -> Prop :=
| head_root x h b us : shows M x ((h, b) :: us) e -> next M x = OUnit h -> heading M e (PRootBack x h false) false ((h, b) :: us) (G ((h, b) :: us))
| head_head x b us : (forall c, quiet M 2 (after M x c true)) -> (forall c, inside M (after M x c false) c b us e) ->
    heading M e (PHeadBack x false) true us (G us + 6)
| head_tail x us : quiet M 2 (after M x false true) -> shows M (after M x false false) us e ->
    heading M e (PTailBack x false) true us (G us + 3)
| head_skip x b us : inside M x false b us e -> heading M e (PRun x) true us (G us + 5)
| head_next x us : shows M x us e -> heading M e (PRun x) true us (G us).
(** The parsing thread woken to stop. *)
Inductive stopping {X H B} (M : machine X H B) : parser X H -> Prop :=
| stop_root x h : (forall c, quiet M 2 (after M x c true)) -> stopping M (PRootBack x h false)
| stop_head x : (forall c, quiet M 2 (after M x c true)) -> stopping M (PHeadBack x false)
| stop_tail x : quiet M 2 (after M x false true) -> stopping M (PTailBack x false).
(** Over. *)
Inductive ending_ {X H B} (M : machine X H B) : parser X H -> bool -> nat -> Prop :=
| end_run n x : quiet M n x -> ending_ M (PRun x) false (3 + n)
| end_done b : ending_ M PDone b 2
| end_notify b : ending_ M PDoneNotify b 1
| end_exit b : ending_ M PExit b 0.

Inductive inv {X H B} (M : machine X H B) (e : bool) (R : list (result H B)) : nat -> sys X H B -> Prop :=
| i_open w p c x k us : opening c -> begins M k x us e -> R = reads us p -> cw c p + (G us + 1 + k) <= w ->
    inv M e R w (Sys p c (PRun x) (Flags false false false false false true) None [] [] false)
| i_pending w p c rr hd bo te wr hu un re : e = false -> (c = CNew /\ wr = true \/ exists st, waits c st) ->
    R = re ++ owed c ++ reads [] p -> cw c p + 2 <= w ->
    inv M e R w (Sys p c PDone (Flags false rr hd bo te wr) hu un re false)
| i_over w p c q n rr hd bo te wr hu un re : at_rest c p -> ending_ M q bo n -> (c = CGone -> q = PExit) ->
    R = re ++ owed c ++ reads [] p -> cw c p + n <= w ->
    inv M e R w (Sys p c q (Flags true rr hd bo te wr) hu un re false)
| i_lost w p c q st n rr hd bo te wr hu un re : e = false -> waits c st -> (q = PDoneNotify /\ n = 1 \/ q = PExit /\ n = 0) ->
    R = re ++ owed c ++ reads [] p -> cw c p + n <= w ->
    inv M e R w (Sys p c q (Flags true rr hd bo te wr) hu un re false)
| i_rest w p c q rr us n hu un re : free_ c p -> resting M e q rr us n -> R = re ++ reads us p -> cw c p + n <= w ->
    inv M e R w (Sys p c q (Flags false rr false false false false) hu un re false)
| i_close w q rr us n hu un re : resting M e q rr us n -> R = re -> cw CNotify [] + n <= w ->
    inv M e R w (Sys [] CNotify q (Flags false rr false false true false) hu un re false)
| i_stopping w q rr hu un re : stopping M q -> R = re -> cw CJoin [] + 10 <= w ->
    inv M e R w (Sys [] CJoin q (Flags false rr false false true false) hu un re false)
| i_ask w p rd u q rr us n un re : resting M e q rr us n -> nth_error un u = Some (None, None) ->
    R = re ++ reads us (opof rd :: p) -> cw (CCall (Hdr rd u)) p + n <= w ->
    inv M e R w (Sys p (CCall (Hdr rd u)) q (Flags false rr true false false false) (Some u) un re false)
| i_run w p c rd u q rr us n un re : waits c (Hdr rd u) -> heading M e q rr us n -> nth_error un u = Some (None, None) ->
    R = re ++ reads us (opof rd :: p) -> cw c p + n <= w ->
    inv M e R w (Sys p c q (Flags false rr true false false false) (Some u) un re false)
| i_header w p c rd u x h b us un re : waits c (Hdr rd u) -> (forall c, quiet M 2 (after M x c true)) ->
    (forall c, inside M (after M x c false) c b us e) -> nth_error un u = Some (Some h, None) ->
    R = re ++ reads ((h, b) :: us) (opof rd :: p) -> cw c p + (G us + 7) <= w ->
    inv M e R w (Sys p c (PHead x) (Flags false true true false false false) (Some u) un re false)
| i_got_header w p rd u x h b us un re : (forall c, quiet M 2 (after M x c true)) ->
    (forall c, inside M (after M x c false) c b us e) -> nth_error un u = Some (Some h, None) ->
    R = re ++ reads ((h, b) :: us) (opof rd :: p) -> cw (CBack (Hdr rd u)) p + (G us + 6) <= w ->
    inv M e R w (Sys p (CBack (Hdr rd u)) (PHeadWait x false) (Flags false true true false false false) (Some u) un re false)
| i_body w p u x h b us un re : (forall c, quiet M 2 (after M x c true)) ->
    (forall c, inside M (after M x c false) c b us e) -> nth_error un u = Some (Some h, None) ->
    R = re ++ reads ((h, b) :: us) (Read :: p) -> cw (CBody u) p + (G us + 6) <= w ->
    inv M e R w (Sys p (CBody u) (PHeadWait x false) (Flags false true false false false false) None un re false)
| i_ask_body w p u x h b us un re : (forall c, quiet M 2 (after M x c true)) ->
    (forall c, inside M (after M x c false) c b us e) -> nth_error un u = Some (Some h, None) ->
    R = re ++ reads ((h, b) :: us) (Read :: p) -> cw (CCall (Bdy u)) p + (G us + 6) <= w ->
    inv M e R w (Sys p (CCall (Bdy u)) (PHeadWait x false) (Flags false true false true false false) (Some u) un re false)
| i_body_back w p c u x h b us un re : waits c (Bdy u) -> (forall c, quiet M 2 (after M x c true)) ->
    (forall c, inside M (after M x c false) c b us e) -> nth_error un u = Some (Some h, None) ->
    R = re ++ reads ((h, b) :: us) (Read :: p) -> cw c p + (G us + 6) <= w ->
    inv M e R w (Sys p c (PHeadBack x false) (Flags false true false true false false) (Some u) un re false)
| i_body_run w p c u x h b us un re : waits c (Bdy u) -> inside M x true b us e -> nth_error un u = Some (Some h, None) ->
    R = re ++ reads ((h, b) :: us) (Read :: p) -> cw c p + (G us + 5) <= w ->
    inv M e R w (Sys p c (PRun x) (Flags false true false true false false) (Some u) un re false)
| i_tail w p c u x h b us un re : waits c (Bdy u) -> quiet M 2 (after M x false true) -> shows M (after M x false false) us e ->
    nth_error un u = Some (Some h, Some b) ->
    R = re ++ reads ((h, Some b) :: us) (Read :: p) -> cw c p + (G us + 4) <= w ->
    inv M e R w (Sys p c (PTail x) (Flags false true false true false false) (Some u) un re false)
| i_got_body w p u x h b us un re : quiet M 2 (after M x false true) -> shows M (after M x false false) us e ->
    nth_error un u = Some (Some h, Some b) ->
    R = re ++ reads ((h, Some b) :: us) (Read :: p) -> cw (CBack (Bdy u)) p + (G us + 3) <= w ->
    inv M e R w (Sys p (CBack (Bdy u)) (PTailWait x false) (Flags false true false true false false) (Some u) un re false).

Lemma nth_put {A} (l : list A) u x y : nth_error l u = Some x -> nth_error (put u y l) u = Some y.
Proof.
  unfold put. revert u. induction l as [|a l IH]; intros [|u] E; try discriminate E; [reflexivity|]. exact (IH u E).
Qed.
Lemma nth_new {A} (l : list A) x : nth_error (l ++ [x]) (length l) = Some x.
Proof. induction l as [|a l IH]; [reflexivity|exact IH]. Qed.
Lemma nth_lt {A} (l : list A) u x : nth_error l u = Some x -> u < length l.
Proof. intros E. apply nth_error_Some. congruence. Qed.

Ltac sys := cbv beta iota zeta delta [set_cl set_pa set_fl set_unit set_units set_prog add_result prog cl pa fl hunit units results fault
  is_done read_root header body terminate wait_root set_done set_read_root set_collect set_terminate clear_wait_root
  wake_caller wake_parser locked stop_if orb nothing is_read opof] in *.
Ltac weigh := sys; unfold G; cbn [cw sw length]; unfold G in *; cbn [cw sw length] in *; lia.

(** * The caller's steps *)
Lemma caller_inv {X H B} (M : machine X H B) e R w s s' : inv M e R w s -> caller_step s = Some s' -> exists w', w' < w /\ inv M e R w' s'.
Proof.
  intros I E. destruct I as
   [w p c x k us O Bg Q W|w p c rr hd bo te wr hu un re He C Q W|w p c q n rr hd bo te wr hu un re A En Gn Q W
   |w p c q st n rr hd bo te wr hu un re He Wt Pq Q W|w p c q rr us n hu un re Fr Rs Q W|w q rr us n hu un re Rs Q W
   |w q rr hu un re St Q W|w p rd u q rr us n un re Rs N Q W|w p c rd u q rr us n un re Wt Hd N Q W
   |w p c rd u x h b us un re Wt Qt Is N Q W|w p rd u x h b us un re Qt Is N Q W|w p u x h b us un re Qt Is N Q W
   |w p u x h b us un re Qt Is N Q W|w p c u x h b us un re Wt Qt Is N Q W|w p c u x h b us un re Wt Is N Q W
   |w p c u x h b us un re Wt Qt Sh N Q W|w p u x h b us un re Qt Sh N Q W]; unfold caller_step in E; sys.
  - destruct O as [->|[->| ->]]; try discriminate E; injection E as <-; sys; eexists; (split; [|apply (i_open _ _ _ _ _ _ _ k us); [unfold opening; auto|exact Bg|exact Q|apply Nat.le_refl]]); weigh.
  - destruct C as [[-> ->]|[st [->| ->]]]; try discriminate E; injection E as <-; sys; eexists; (split; [|apply i_pending; [exact He|right; eexists; unfold waits; eauto|exact Q|apply Nat.le_refl]]); weigh.
  - destruct A as [->|[->|[[st ->]|[[->|[->|[->| ->]]] ->]]]].
    + injection E as <-; sys. eexists. split; [|apply (i_over _ _ _ _ _ _ _ n); [unfold at_rest; auto|exact En|discriminate|exact Q|apply Nat.le_refl]]. weigh.
    + destruct p as [|o p]; injection E as <-; sys.
      * eexists. split; [|apply (i_over _ _ _ _ _ _ _ n); [unfold at_rest; auto 8|exact En|discriminate|exact Q|apply Nat.le_refl]]. weigh.
      * eexists. split; [|apply (i_over _ _ _ _ _ _ _ n); [unfold at_rest; auto|exact En|discriminate| |apply Nat.le_refl]]; [weigh|].
        rewrite Q. cbn [owed app]. rewrite <- app_assoc. destruct o; reflexivity.
    + destruct st as [|rd u|u]; injection E as <-; sys.
      * eexists. split; [|apply (i_over _ _ _ _ _ _ _ n); [unfold at_rest; auto|exact En|discriminate|exact Q|apply Nat.le_refl]]. weigh.
      * eexists. split; [|apply (i_over _ _ _ _ _ _ _ n); [unfold at_rest; auto| |discriminate| |apply Nat.le_refl]]; [weigh| |].
        -- inversion En; subst; constructor; assumption.
        -- rewrite Q. cbn [owed app]. rewrite <- app_assoc. reflexivity.
      * eexists. split; [|apply (i_over _ _ _ _ _ _ _ n); [unfold at_rest; auto| |discriminate| |apply Nat.le_refl]]; [weigh| |].
        -- inversion En; subst; constructor; assumption.
        -- rewrite Q. cbn [owed app]. rewrite <- app_assoc. reflexivity.
    + injection E as <-; sys. eexists. split; [|apply (i_over _ _ _ _ _ _ _ n); [unfold at_rest; auto 8|exact En|discriminate|exact Q|apply Nat.le_refl]]. weigh.
    + injection E as <-. destruct En as [n x Qn|b|b|b]; sys; (eexists; split; [|eapply i_over; [unfold at_rest; auto 8|econstructor; try eassumption|discriminate|exact Q|apply Nat.le_refl]]; weigh).
    + inversion En; subst; try discriminate E. injection E as <-; sys. eexists. split; [|apply (i_over _ _ _ _ _ _ _ 0); [unfold at_rest; auto 8|constructor|reflexivity|reflexivity|apply Nat.le_refl]]. weigh.
    + discriminate E.
  - destruct Wt as [->| ->]; [|discriminate E]. injection E as <-; sys. eexists. split; [|apply (i_lost _ _ _ _ _ _ _ st n); [exact He|unfold waits; auto|exact Pq|exact Q|apply Nat.le_refl]]. weigh.
  - destruct Fr as [->|[->|[->|[-> ->]]]].
    + injection E as <-; sys. eexists. split; [|apply (i_rest _ _ _ _ _ _ _ rr us n); [unfold free_; auto|exact Rs|exact Q|apply Nat.le_refl]]. weigh.
    + injection E as <-; sys. eexists. split; [|apply (i_rest _ _ _ _ _ _ _ rr us n); [unfold free_; auto|exact Rs|exact Q|apply Nat.le_refl]]. weigh.
    + destruct p as [|o p]; injection E as <-; sys.
      * eexists. split; [|apply (i_rest _ _ _ _ _ _ _ rr us n); [unfold free_; auto|exact Rs|exact Q|apply Nat.le_refl]]. weigh.
      * eexists. split; [|apply (i_ask _ _ _ _ _ _ _ _ rr us n); [exact Rs|apply nth_new| |apply Nat.le_refl]]; [weigh|]. rewrite Q. destruct o; reflexivity.
    + injection E as <-; sys. eexists. split; [|apply (i_close _ _ _ _ _ rr us n); [exact Rs| |apply Nat.le_refl]]; [weigh|]. rewrite Q. cbn [reads]. apply app_nil_r.
  - injection E as <-; sys. inversion Rs as [x h b us' Sh Nx|x b us' Qt Is|x us' Qt Sh]; subst; sys; eexists; (split; [|apply i_stopping; [|reflexivity|apply Nat.le_refl]]); try weigh.
    + apply stop_root. inversion Sh; subst. assumption.
    + apply stop_head. exact Qt.
    + apply stop_tail. exact Qt.
  - destruct St; discriminate E.
  - inversion Rs as [x h b us' Sh Nx|x b us' Qt Is|x us' Qt Sh]; subst; sys; injection E as <-; sys.
    + eexists. split; [|apply (i_run _ _ _ _ _ _ rd u _ _ ((h, b) :: us') (G ((h, b) :: us'))); [unfold waits; auto|constructor; assumption|exact N|reflexivity|apply Nat.le_refl]]. weigh.
    + eexists. split; [|apply (i_run _ _ _ _ _ _ rd u _ _ us (G us + 6)); [unfold waits; auto|econstructor; eassumption|exact N|reflexivity|apply Nat.le_refl]]. weigh.
    + eexists. split; [|apply (i_run _ _ _ _ _ _ rd u _ _ us (G us + 3)); [unfold waits; auto|econstructor; eassumption|exact N|reflexivity|apply Nat.le_refl]]. weigh.
  - destruct Wt as [->| ->]; [|discriminate E]. injection E as <-; sys. eexists. split; [|apply (i_run _ _ _ _ _ _ rd u _ _ us n); [unfold waits; auto|exact Hd|exact N|exact Q|apply Nat.le_refl]]. weigh.
  - destruct Wt as [->| ->]; [|discriminate E]. injection E as <-; sys. eexists. split; [|apply (i_header _ _ _ _ _ _ rd u x h b us); [unfold waits; auto|exact Qt|exact Is|exact N|exact Q|apply Nat.le_refl]]. weigh.
  - destruct rd; injection E as <-; sys.
    + eexists. split; [|apply (i_body _ _ _ _ _ u x h b us); [exact Qt|exact Is|exact N|exact Q|apply Nat.le_refl]]. weigh.
    + eexists. split; [|apply (i_rest _ _ _ _ _ _ _ true us (G us + 6)); [unfold free_; auto|econstructor; eassumption| |apply Nat.le_refl]]; [weigh|].
      rewrite Q. cbn [opof]. rewrite <- app_assoc. destruct b; [reflexivity|]. specialize (Is true). inversion Is; subst. reflexivity.
  - injection E as <-; sys. eexists. split; [|apply (i_ask_body _ _ _ _ _ u x h b us); [exact Qt|exact Is|exact N|exact Q|apply Nat.le_refl]]. weigh.
  - injection E as <-; sys. eexists. split; [|apply (i_body_back _ _ _ _ _ _ u x h b us); [unfold waits; auto|exact Qt|exact Is|exact N|exact Q|apply Nat.le_refl]]. weigh.
  - destruct Wt as [->| ->]; [|discriminate E]. injection E as <-; sys. eexists. split; [|apply (i_body_back _ _ _ _ _ _ u x h b us); [unfold waits; auto|exact Qt|exact Is|exact N|exact Q|apply Nat.le_refl]]. weigh.
  - destruct Wt as [->| ->]; [|discriminate E]. injection E as <-; sys. eexists. split; [|apply (i_body_run _ _ _ _ _ _ u x h b us); [unfold waits; auto|exact Is|exact N|exact Q|apply Nat.le_refl]]. weigh.
  - destruct Wt as [->| ->]; [|discriminate E]. injection E as <-; sys. eexists. split; [|apply (i_tail _ _ _ _ _ _ u x h b us); [unfold waits; auto|exact Qt|exact Sh|exact N|exact Q|apply Nat.le_refl]]. weigh.
  - rewrite N in E. injection E as <-; sys. eexists. split; [|apply (i_rest _ _ _ _ _ _ _ true us (G us + 3)); [unfold free_; auto|econstructor; eassumption| |apply Nat.le_refl]]; [weigh|].
    rewrite Q, <- app_assoc. reflexivity.
Qed.
