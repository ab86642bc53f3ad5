(** Conditional compilation: proofs for the option that leaves #else as text. *)
From Verif Require Import Base Cond_Model Cond_Spec Cond_Proofs.
From Coq Require Import Lia.
Local Open Scope N_scope.

(** Code at the top or in the #else of an #if 0 ([live]); in an #if 0, in an #else, with the number of #if since, less one *)
Inductive level := Code (live : bool) | Zero (live : bool) (k : nat) | Skip (live : bool) (k : nat).
Definition text1 (a : level) : bool := match a with Code _ => false | _ => true end.
Definition R1 (a : level) (d : directive) (a' : level) : Prop :=
  match d with
  | Dother => a' = a
  | Dif true => match a with Code v => a' = Zero v 0 | Zero v k => a' = Zero v (S k) | Skip _ _ => False end
  | Dif false | Dif_other => match a with Code v => a' = Code v | Zero v k => a' = Zero v (S k) | Skip v k => a' = Skip v (S k) end
  | Delse | Delif _ => match a with Code v => a' = Skip v 0 | Zero v (S k) => a' = a | Zero v O => v = false /\ a' = Code true | Skip v O => a' = Skip v 0 | Skip v (S k) => False end
  | Dendif => match a with Code v | Skip v O => exists w, a' = Code w /\ (w = true -> v = true) | Zero v O => a' = Code v | Zero v (S k) => a' = Zero v k | Skip v (S k) => a' = Skip v k end
  end.
Lemma ROther a : R1 a Dother a. Proof. reflexivity. Qed.
Lemma RIf v i : is_zero i = false -> R1 (Code v) (opens i) (Code v). Proof. destruct i as [[|]|]; cbn; congruence. Qed.
Lemma RIf0 v i : is_zero i = true -> R1 (Code v) (opens i) (Zero v 0). Proof. destruct i as [[|]|]; cbn; congruence. Qed.
Lemma RElse v e : R1 (Code v) (goes_on e) (Skip v 0). Proof. destruct e; reflexivity. Qed.
Lemma REnd v w : (w = true -> v = true) -> R1 (Code v) Dendif (Code w). Proof. exists w. auto. Qed.
Lemma RZIf v i k : R1 (Zero v k) (opens i) (Zero v (S k)). Proof. destruct i as [[|]|]; reflexivity. Qed.
Lemma RZElse v e k : R1 (Zero v (S k)) (goes_on e) (Zero v (S k)). Proof. destruct e; reflexivity. Qed.
Lemma RZLive e : R1 (Zero false 0) (goes_on e) (Code true). Proof. destruct e; split; reflexivity. Qed.
Lemma RZEnd v : R1 (Zero v 0) Dendif (Code v). Proof. reflexivity. Qed.
Lemma RZDown v k : R1 (Zero v (S k)) Dendif (Zero v k). Proof. reflexivity. Qed.
Lemma RSIf v i k : is_zero i = false -> R1 (Skip v k) (opens i) (Skip v (S k)). Proof. destruct i as [[|]|]; cbn; congruence. Qed.
Lemma RSElse v e : R1 (Skip v 0) (goes_on e) (Skip v 0). Proof. destruct e; reflexivity. Qed.
Lemma RSEnd v w : (w = true -> v = true) -> R1 (Skip v 0) Dendif (Code w). Proof. exists w. auto. Qed.
Lemma RSDown v k : R1 (Skip v (S k)) Dendif (Skip v k). Proof. reflexivity. Qed.
Definition path1 := path R1 text1.
Lemma step1 a d t a' l a'' : R1 a d a' -> t = text1 a' -> path1 a' l a'' -> path1 a ((d, t) :: l) a''.
Proof. apply step_t. Qed.
Lemma app1 a l a' l' a'' : path1 a l a' -> path1 a' l' a'' -> path1 a (l ++ l') a''.
Proof. apply path_app. Qed.
Lemma path_zero : 
  (forall b v k, path1 (Zero v k) (marked true true true b) (Zero v k)) /\
  (forall p v k, path1 (Zero v k) (part_marked true true true p) (Zero v k)) /\
  (forall r z v k, path1 (Zero v (S k)) (rest_marked true true true z r) (Zero v k)).
Proof.
  apply source_ind.
  - constructor.
  - intros p Hp b Hb v k. cbn. eapply app1; [apply Hp|apply Hb].
  - intros v k. cbn. eapply step1; [apply ROther|reflexivity|constructor].
  - intros i f Hf r Hr v k. cbn. eapply step1; [apply RZIf|reflexivity|]. eapply app1; [apply Hf|apply Hr].
  - intros z v k. cbn. eapply step1; [apply RZDown|reflexivity|constructor].
  - intros e b Hb r Hr z v k. cbn. eapply step1; [apply RZElse|reflexivity|]. eapply app1; [apply Hb|apply Hr].
Qed.
Lemma path_plain :
  (forall b v k, plain b = true -> path1 (Skip v k) (marked true true true b) (Skip v k)) /\
  (forall p v k, plain_part p = true -> path1 (Skip v k) (part_marked true true true p) (Skip v k)) /\
  (forall r : branches, True).
Proof.
  apply source_ind.
  - constructor.
  - intros p Hp b Hb v k H. cbn in H. apply andb_true_iff in H as [H1 H2]. cbn. eapply app1; [now apply Hp|now apply Hb].
  - intros v k H. cbn. eapply step1; [apply ROther|reflexivity|constructor].
  - intros i f Hf r _ v k H. cbn in H. apply andb_true_iff in H as [H H3]. apply andb_true_iff in H as [H1 H2]. apply negb_true_iff in H1.
    destruct r; [|discriminate]. cbn. eapply step1; [now apply RSIf|reflexivity|]. eapply app1; [now apply Hf|].
    eapply step1; [apply RSDown|reflexivity|constructor].
  - auto.
  - auto.
Qed.
(** after the first else: back to [w] *)
Lemma path_skip_rest r v w : (w = true -> v = true) -> plain_rest r = true -> path1 (Skip v 0) (rest_marked true true false false r) (Code w).
Proof.
  intros W. induction r as [|e b r IH]; intros H.
  - cbn. eapply step1; [apply (RSEnd v w W)|reflexivity|constructor].
  - cbn in H. apply andb_true_iff in H as [H1 H2]. cbn. eapply step1; [apply RSElse|reflexivity|]. eapply app1; [now apply (proj1 path_plain)|now apply IH].
Qed.
Lemma path_code_rest r v w : (w = true -> v = true) -> plain_rest r = true -> path1 (Code v) (rest_marked true true false false r) (Code w).
Proof.
  intros W. destruct r as [|e b r]; intros H.
  - cbn. eapply step1; [apply (REnd v w W)|reflexivity|constructor].
  - cbn in H. apply andb_true_iff in H as [H1 H2]. cbn. eapply step1; [apply RElse|reflexivity|]. eapply app1; [now apply (proj1 path_plain)|now apply path_skip_rest].
Qed.
Lemma path_simple :
  (forall b v, simple v b = true -> path1 (Code v) (marked true true false b) (Code v)) /\
  (forall p v, simple_part v p = true -> path1 (Code v) (part_marked true true false p) (Code v)) /\
  (forall r, match r with Endif => True | Branch _ b _ => forall v, simple v b = true -> path1 (Code v) (marked true true false b) (Code v) end).
Proof.
  apply source_ind.
  - constructor.
  - intros p Hp b Hb v H. cbn in H. apply andb_true_iff in H as [H1 H2]. cbn. eapply app1; [now apply Hp|now apply Hb].
  - intros v H. cbn. eapply step1; [apply ROther|reflexivity|constructor].
  - intros i f Hf r Hr v H. cbn in H. destruct (is_zero i) eqn:Z.
    + cbn. rewrite Z. cbn. eapply step1; [now apply RIf0|reflexivity|]. eapply app1; [apply path_zero|]. destruct r as [|e b r].
      * cbn. eapply step1; [apply RZEnd|reflexivity|constructor].
      * apply andb_true_iff in H as [H H3]. apply andb_true_iff in H as [H1 H2]. apply negb_true_iff in H1. subst v.
        cbn. eapply step1; [apply RZLive|reflexivity|]. eapply app1; [now apply Hr|]. apply path_code_rest; [discriminate|assumption].
    + apply andb_true_iff in H as [H1 H2]. cbn. rewrite Z. cbn. eapply step1; [now apply RIf|reflexivity|]. eapply app1; [now apply Hf|].
      apply path_code_rest; auto.
  - exact Logic.I.
  - intros e b Hb r Hr. exact Hb.
Qed.

(** ** The state at each level *)
Definition opt := COptions true false.
Definition shut (l : list cppitem) : Prop := match l with [] => True | [it] => isclosed it = true | _ => False end.
Definition open_mode (l : list cppitem) : Prop := match l with [] => True | [it] => isclosed it = true \/ skips it = false | _ => False end.
Definition short (l : list cppitem) : Prop := (length l <= 1)%nat.
(** what look-ahead keeps *)
Definition counts (a : level) (s : pp) : Prop :=
  match a with
  | Code _ => zeromode s = false /\ skipelse s = false
  | Zero _ k => zeromode s = true /\ skipelse s = false /\ ifcount s = Z.of_nat (S k)
  | Skip _ k => zeromode s = false /\ skipelse s = true /\ ifcount s = Z.of_nat (S k)
  end.
Definition modes (a : level) (l : list cppitem) : Prop :=
  match a with Code false | Zero false O => shut l | Code true => open_mode l | _ => short l end.
Definition silent (l : list cppitem) : Prop := match l with it :: _ => negb (isclosed it) && skips it = false | [] => True end.
Lemma shut_open l : shut l -> open_mode l.
Proof. destruct l as [|it [|]]; cbn; auto. Qed.
Lemma open_short l : open_mode l -> short l.
Proof. destruct l as [|it [|]]; unfold short; cbn; auto; contradiction. Qed.
Lemma open_silent l : open_mode l -> silent l.
Proof. destruct l as [|it [|]]; cbn; auto; [|contradiction]. intros [->| ->]; [reflexivity|apply andb_false_r]. Qed.
Lemma modes_short a l : modes a l -> short l.
Proof. destruct a as [[|]|[|] [|]|]; cbn; auto using open_short, shut_open. Qed.
Lemma counts_step o g size a d a' s : R1 a d a' -> counts a s -> counts a' (fst (eol_post o g size d s)).
Proof.
  intros H C. destruct s as [z e c m]. unfold eol_post. cbn [fst].
  destruct a as [v|v k|v k]; cbn -[Z.of_nat] in C.
  - destruct C as [-> ->]. destruct d as [[|]| | | | |]; cbn in *; subst; cbn; auto. destruct H as (w & -> & _). cbn. auto.
  - destruct C as (-> & -> & C). destruct d as [zero| | |zero| |]; cbn -[Z.of_nat Z.add Z.sub Z.eqb] in *.
    + destruct zero; subst a'; cbn -[Z.of_nat Z.add]; (split; [reflexivity|split; [reflexivity|lia]]).
    + subst a'; cbn -[Z.of_nat Z.add]; (split; [reflexivity|split; [reflexivity|lia]]).
    + destruct k; [destruct H as [-> ->]|subst a']; destruct (Z.eqb_spec c 1); try lia; cbn -[Z.of_nat]; auto.
    + destruct k; [destruct H as [-> ->]|subst a']; destruct (Z.eqb_spec c 1); try lia; cbn -[Z.of_nat]; auto.
    + destruct k; subst a'; destruct (Z.eqb_spec (c - 1) 0); try lia; cbn -[Z.of_nat Z.sub]; auto with zarith.
    + subst a'. cbn -[Z.of_nat]. auto.
  - destruct C as (-> & -> & C). destruct d as [zero| | |zero| |]; cbn -[Z.of_nat Z.add Z.sub Z.eqb] in *.
    + destruct zero; [contradiction|]. subst a'; cbn -[Z.of_nat Z.add]; (split; [reflexivity|split; [reflexivity|lia]]).
    + subst a'; cbn -[Z.of_nat Z.add]; (split; [reflexivity|split; [reflexivity|lia]]).
    + destruct k; [|contradiction]. subst a'. cbn. auto.
    + destruct k; [|contradiction]. subst a'. cbn. auto.
    + destruct k; [destruct H as (w & -> & _)|subst a']; destruct (Z.eqb_spec (c - 1) 0); try lia; cbn -[Z.of_nat Z.sub]; auto with zarith.
    + subst a'. cbn -[Z.of_nat]. auto.
Qed.
Lemma cleanup_shut it r : r = [] -> isclosed it = true -> shut (cleanup (it :: r)).
Proof. intros -> C. unfold cleanup. destruct (_ || _); cbn; auto. Qed.
Lemma modes_step size a d a' s : R1 a d a' -> counts a s -> modes a (cppmode s) -> modes a' (cppmode (fst (eol_post opt false size d s))).
Proof.
  intros H C M. assert (SH := modes_short _ _ M). destruct s as [z e c m]. cbn [cppmode] in M, SH.
  assert (IFS : forall d, match d with Dif _ | Dif_other | Dother => True | _ => False end -> cppmode (fst (eol_post opt false size d (PP z e c m))) = m).
  { intros d' D. destruct d'; try contradiction; unfold eol_post; cbn; try reflexivity. destruct (negb z && zero); reflexivity. destruct z; reflexivity. }
  assert (END : shut (cppmode (fst (eol_post opt false size Dendif (PP z e c m))))).
  { unfold eol_post. cbn [fst text_else opt negb andb cppmode]. destruct m as [|it m]; [exact Logic.I|].
    apply cleanup_shut; [|reflexivity]. destruct m; [reflexivity|]. unfold short in SH. cbn in SH. lia. }
  assert (ELSE : forall d, match d with Delse | Delif _ => True | _ => False end -> let m' := cppmode (fst (eol_post opt false size d (PP z e c m))) in
                 short m' /\ (shut m -> z = true -> c = 1%Z -> open_mode m')).
  { intros d' D. destruct m as [|it [|]]; [| |unfold short in SH; cbn in SH; lia].
    - destruct d'; try contradiction; unfold eol_post; cbn -[N.ltb];
        destruct z, (c =? 1)%Z; cbn -[N.ltb]; rewrite ?N.ltb_irrefl; cbn; (split; [unfold short; cbn; lia|auto]).
    - destruct d'; try contradiction; unfold eol_post; cbn -[N.ltb];
        destruct z, (c =? 1)%Z; cbn -[N.ltb]; try destruct (size <? _); cbn; (split; [unfold short; cbn; lia|auto]). }
  destruct d as [zero| | |zero| |].
  - rewrite IFS by exact Logic.I. destruct zero, a as [[|]|[|] k|v k]; cbn in H; subst; cbn in *; auto using open_short, shut_open; try contradiction; destruct k; auto using shut_open, open_short.
  - rewrite IFS by exact Logic.I. destruct a as [[|]|[|] k|v k]; cbn in H; subst; cbn in *; auto using open_short, shut_open; destruct k; auto using shut_open, open_short.
  - destruct (ELSE Delse Logic.I) as [E1 E2]. cbn zeta in E1, E2. destruct a as [v|v [|k]|v [|k]]; cbn in H; try contradiction; subst; try exact E1.
    + destruct H as [-> ->]. destruct C as (C1 & _ & C2). cbn -[eol_post]. now apply E2.
    + destruct v; exact E1.
  - destruct (ELSE (Delif zero) Logic.I) as [E1 E2]. cbn zeta in E1, E2. destruct a as [v|v [|k]|v [|k]]; cbn in H; try contradiction; subst; try exact E1.
    + destruct H as [-> ->]. destruct C as (C1 & _ & C2). cbn -[eol_post]. now apply E2.
    + destruct v; exact E1.
  - assert (E2 := shut_open _ END). assert (E3 := open_short _ E2). destruct a as [v|v [|k]|v [|k]]; cbn in H; try (destruct H as (w & -> & _)); subst; try exact E3.
    + destruct w; assumption.
    + destruct v; assumption.
    + destruct v, k; assumption.
    + destruct w; assumption.
  - rewrite IFS by exact Logic.I. cbn in H. now subst.
Qed.
Lemma handled_counts a before size s : counts a s -> counts a (else_handled before size s).
Proof.
  intros C. unfold else_handled. destruct (cppmode s) as [|it r]; [exact C|]. destruct (Nat.eqb before (length (statesize it))); [exact C|]. destruct a; exact C.
Qed.
Lemma handled_modes a before size s : modes a (cppmode s) -> modes a (cppmode (else_handled before size s)).
Proof.
  intros M. assert (SH := modes_short _ _ M). unfold else_handled. destruct (cppmode s) as [|it r] eqn:E; [now rewrite E|].
  destruct (Nat.eqb before (length (statesize it))); [now rewrite E|]. cbn [cppmode isclosed].
  destruct r; [|unfold short in SH; cbn in SH; lia].
  destruct (isclosed it) eqn:C.
  - assert (X : shut (cleanup [CppItem (removelast (statesize it) ++ [size]) true (skips it)])) by now apply cleanup_shut.
    assert (Y := shut_open _ X). assert (W := open_short _ Y). destruct a as [[|]|[|] [|]|]; cbn [modes]; assumption.
  - destruct a as [[|]|[|] [|]|]; cbn in *; auto; try congruence; unfold short; cbn; lia.
Qed.
Lemma guess_modes size d s : cppmode (fst (eol_post opt true size d s)) = cppmode s.
Proof.
  unfold eol_post. cbn [fst]. destruct d; cbn; try reflexivity.
  - destruct (negb (zeromode s) && zero); reflexivity.
  - rewrite andb_false_r. reflexivity.
  - destruct (zeromode s), (ifcount s =? 1)%Z; reflexivity.
  - destruct (zeromode s), (ifcount s =? 1)%Z; reflexivity.
Qed.
Lemma flag g size d s a' : counts a' (fst (eol_post opt g size d s)) -> (text1 a' = false -> silent (cppmode (fst (eol_post opt g size d s)))) ->
  snd (eol_post opt g size d s) = text1 a'.
Proof.
  unfold eol_post. cbn [fst snd opt text_else markup_if0 negb andb].
  match goal with |- counts _ ?x -> _ => generalize x end. intros s1 C S.
  destruct a' as [v|v k|v k]; cbn -[Z.of_nat] in C.
  - destruct C as [-> ->]. cbn. rewrite andb_false_r. cbn. specialize (S eq_refl). unfold silent in S. destruct (cppmode s1); [reflexivity|exact S].
  - destruct C as (-> & -> & C). reflexivity.
  - destruct C as (-> & -> & C). reflexivity.
Qed.
Lemma modes_silent a l : text1 a = false -> modes a l -> silent l.
Proof. destruct a as [[|]| |]; cbn; intros X M; try discriminate; auto using open_silent, shut_open. Qed.
Lemma counts_code a a' s : text1 a = false -> text1 a' = false -> counts a s -> counts a' s.
Proof. destruct a, a'; cbn; intros; try discriminate; assumption. Qed.
Theorem else_marked b : simple false b = true -> forall l, parses opt (marked true true false b) 0 start l -> as_marked (marked true true false b) l.
Proof.
  intros H. apply (proj1 path_simple b false) in H. revert H. generalize (marked true true false b). intros ds H.
  destruct (path_levels _ _ _ _ _ H) as (lev & L0 & LE & LS).
  assert (T : forall p, text_at ds p = text1 (lev p)) by exact (text_lev R1 text1 ds lev (Code false) eq_refl L0 LE LS).
  assert (LK : forall p s q s' l, looks opt ds p s q s' l -> counts (lev p) s -> silent (cppmode s) -> counts (lev q) s' /\ cppmode s' = cppmode s /\ as_marked ds l).
  { induction 1 as [p s|p s d t size s' b0 q s'' l N E K IH|p s p' q s'' l T1 T2 K IH]; intros F Q.
    - split; [exact F|]. split; [reflexivity|]. intros ? ? [].
    - destruct (LS _ _ _ N) as [R ->]. assert (F' := counts_step opt true size _ _ _ _ R F). assert (G := guess_modes size d s).
      assert (B := flag true size d s _ F'). rewrite E in F', G, B. cbn [fst snd] in F', G, B. rewrite G in *.
      destruct (IH F' Q) as (G1 & G2 & M). split; [exact G1|]. split; [exact G2|].
      intros p' b' [X|X]; [|now apply M]. injection X as <- <-. rewrite B by (intros _; exact Q). eauto.
    - rewrite T in T1, T2. apply IH; [|exact Q]. revert F. now apply counts_code. }
  assert (PR : forall p s l, parses opt ds p s l -> counts (lev p) s -> modes (lev p) (cppmode s) -> as_marked ds l).
  { induction 1 as [p s|p s d t size s' b0 l' N E K IH|p s before size l' K IH|p s q s' l1 l2 T1 K T2 P IH]; intros F M.
    - intros ? ? [].
    - destruct (LS _ _ _ N) as [R ->]. assert (F' := counts_step opt false size _ _ _ _ R F). assert (M' := modes_step size _ _ _ _ R F M).
      assert (B := flag false size d s _ F' (fun X => modes_silent _ _ X M')). rewrite E in F', M', B. cbn [fst snd] in F', M', B.
      intros p' b' [X|X]; [|now apply IH]. injection X as <- <-. rewrite B. eauto.
    - apply IH; [now apply handled_counts|now apply handled_modes].
    - rewrite T in T1, T2. destruct (LK _ _ _ _ _ K F (modes_silent _ _ T1 M)) as (F' & G & A). rewrite G in IH.
      intros p' b' X. apply in_app_or in X as [X|X]; [now apply A|]. apply IH; [|exact M|exact X]. revert F'. now apply counts_code. }
  intros l P. eapply PR; [exact P| |]; rewrite L0; cbn; auto.
Qed.
