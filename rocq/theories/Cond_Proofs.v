(** Conditional compilation: proofs. *)
From Verif Require Import Base Cond_Model Cond_Spec.
From Coq Require Import Lia.
Local Open Scope N_scope.

Scheme block_mut := Induction for block Sort Prop
with part_mut := Induction for part Sort Prop
with branches_mut := Induction for branches Sort Prop.
Combined Scheme source_ind from block_mut, part_mut, branches_mut.

(** ** Paths of levels *)
Inductive path {A : Type} (R : A -> directive -> A -> Prop) (text : A -> bool) : A -> list (directive * bool) -> A -> Prop :=
| Done a : path R text a [] a
| Step a d a' l a'' : R a d a' -> path R text a' l a'' -> path R text a ((d, text a') :: l) a''.
Lemma path_app {A} (R : A -> directive -> A -> Prop) text a l a' l' a'' : path R text a l a' -> path R text a' l' a'' -> path R text a (l ++ l') a''.
Proof. induction 1; intros P; [exact P|]. cbn. constructor 2 with (a' := a'); auto. Qed.
Lemma step_t {A} (R : A -> directive -> A -> Prop) text a d t a' l a'' : R a d a' -> t = text a' -> path R text a' l a'' -> path R text a ((d, t) :: l) a''.
Proof. intros H -> P. econstructor; eauto. Qed.
Lemma path_levels {A} (R : A -> directive -> A -> Prop) text a ds a' : path R text a ds a' ->
  exists lev : nat -> A, lev 0%nat = a /\ (forall p, (length ds <= p)%nat -> lev p = a') /\
    forall p d t, nth_error ds p = Some (d, t) -> R (lev p) d (lev (S p)) /\ t = text (lev (S p)).
Proof.
  induction 1 as [a|a d a1 l a2 H P (lev & L0 & LE & LS)].
  - exists (fun _ => a). repeat split; auto; destruct p; discriminate.
  - exists (fun p => match p with O => a | S q => lev q end). split; [reflexivity|]. split.
    + intros [|q] Hq; cbn in Hq; [lia|]. apply LE. lia.
    + intros [|q] d' t E; cbn in E.
      * injection E as -> <-. rewrite L0. auto.
      * apply LS in E. exact E.
Qed.

(** ** Without either option *)
Definition next (L : option nat) (d : directive) : option nat :=
  match L with
  | None => match d with Dif true => Some 0%nat | _ => None end
  | Some k => match d with
              | Dif _ | Dif_other => Some (S k)
              | Delse | Delif _ => match k with O => None | _ => L end
              | Dendif => match k with O => None | S j => Some j end
              | Dother => L
              end
  end.
Definition R0 (a : option nat) (d : directive) (a' : option nat) : Prop := next a d = a'.
Definition text0 (a : option nat) : bool := match a with Some _ => true | None => false end.
Lemma path_marked :
  (forall b a, path R0 text0 a (marked false true (text0 a) b) a) /\
  (forall p a, path R0 text0 a (part_marked false true (text0 a) p) a) /\
  (forall r,
     (forall k, path R0 text0 (Some (S k)) (rest_marked false true true false r) (Some k)) /\
     (forall k, path R0 text0 (Some (S k)) (rest_marked false true true true r) (Some k)) /\
     path R0 text0 (Some 0%nat) (rest_marked false true false true r) None /\
     path R0 text0 None (rest_marked false true false false r) None).
Proof.
  apply source_ind.
  - constructor.
  - intros p Hp b Hb a. cbn. eapply path_app; [apply Hp|apply Hb].
  - intros [k|]; cbn; (eapply step_t; [reflexivity|reflexivity|constructor]).
  - intros i f Hf r (R1 & R2 & R3 & R4) [k|].
    + cbn. eapply (step_t _ _ _ _ _ (Some (S k))); [destruct i as [[|]|]; reflexivity|reflexivity|].
      eapply path_app; [apply (Hf (Some (S k)))|]. destruct (is_zero i); auto.
    + destruct i as [[|]|]; cbn.
      * eapply (step_t _ _ _ _ _ (Some 0%nat)); [reflexivity|reflexivity|]. eapply path_app; [apply (Hf (Some 0%nat))|exact R3].
      * eapply (step_t _ _ _ _ _ None); [reflexivity|reflexivity|]. eapply path_app; [apply (Hf None)|exact R4].
      * eapply (step_t _ _ _ _ _ None); [reflexivity|reflexivity|]. eapply path_app; [apply (Hf None)|exact R4].
  - repeat split; intros; cbn; (eapply step_t; [reflexivity|reflexivity|constructor]).
  - intros e b Hb r (R1 & R2 & R3 & R4). repeat split; intros; cbn.
    + eapply (step_t _ _ _ _ _ (Some (S k))); [destruct e; reflexivity|reflexivity|]. eapply path_app; [apply (Hb (Some (S k)))|apply R1].
    + eapply (step_t _ _ _ _ _ (Some (S k))); [destruct e; reflexivity|reflexivity|]. eapply path_app; [apply (Hb (Some (S k)))|apply R1].
    + eapply (step_t _ _ _ _ _ None); [destruct e; reflexivity|reflexivity|]. eapply path_app; [apply (Hb None)|apply R4].
    + eapply (step_t _ _ _ _ _ None); [destruct e; reflexivity|reflexivity|]. eapply path_app; [apply (Hb None)|apply R4].
Qed.
Lemma path_source l : (forall d, In (Stray d) l -> stray d) -> path R0 text0 None (source_marked false true l) None.
Proof.
  induction l as [|[p|d] l IH]; intros H; [constructor| |].
  - cbn. eapply path_app; [apply (proj1 (proj2 path_marked) p None)|]. apply IH. intros d Hd. apply H. now right.
  - cbn. assert (S := H d (or_introl eq_refl)). eapply step_t with (a' := None); [destruct d; cbn in S; try contradiction; reflexivity|reflexivity|].
    apply IH. intros d' Hd. apply H. now right.
Qed.
Definition quiet (l : list cppitem) : Prop := Forall (fun it => skips it = false) l.
Definition fits0 (a : option nat) (s : pp) : Prop :=
  quiet (cppmode s) /\ match a with None => zeromode s = false | Some k => zeromode s = true /\ ifcount s = Z.of_nat (S k) end.
Lemma quiet_top l : quiet l -> match l with it :: _ => negb (isclosed it) && skips it | [] => false end = false.
Proof. intros Q. destruct l as [|it l]; [reflexivity|]. apply Forall_inv in Q. rewrite Q. apply andb_false_r. Qed.
Lemma quiet_step o g size d s : text_else o = false -> quiet (cppmode s) -> quiet (cppmode (fst (eol_post o g size d s))).
Proof.
  intros T Q. unfold eol_post. rewrite T. cbn [negb andb fst].
  destruct d; cbn [cppmode]; try exact Q.
  - destruct (negb (zeromode s) && zero); cbn [cppmode]; destruct g; cbn; [exact Q|now constructor|exact Q|now constructor].
  - rewrite andb_false_r. cbn. destruct g; cbn; [exact Q|now constructor].
  - destruct (zeromode s && (ifcount s =? 1)%Z), (negb (zeromode s)); exact Q.
  - destruct (zeromode s && (ifcount s =? 1)%Z), (negb (zeromode s)); exact Q.
Qed.
Lemma fits0_step g size d s a : fits0 a s -> fits0 (next a d) (fst (eol_post (COptions false false) g size d s)) /\
  snd (eol_post (COptions false false) g size d s) = text0 (next a d).
Proof.
  intros (Q & F). assert (Q' := quiet_step (COptions false false) g size d s eq_refl Q).
  assert (Z : match next a d with None => zeromode (fst (eol_post (COptions false false) g size d s)) = false
              | Some k => zeromode (fst (eol_post (COptions false false) g size d s)) = true /\ ifcount (fst (eol_post (COptions false false) g size d s)) = Z.of_nat (S k) end).
  { destruct s as [z e c m]. cbn -[Z.of_nat] in F. unfold eol_post, next. destruct a as [k|]; [destruct F as [-> C]|subst z].
    - destruct d as [zero| | |zero| |]; cbn [zeromode ifcount skipelse negb andb fst].
      + split; [reflexivity|cbn -[Z.of_nat Z.add]; lia].
      + split; [reflexivity|cbn -[Z.of_nat Z.add]; lia].
      + destruct (Z.eqb_spec c 1); destruct k; try lia; cbn -[Z.of_nat]; auto.
      + destruct (Z.eqb_spec c 1); destruct k; try lia; cbn -[Z.of_nat]; auto.
      + destruct (Z.eqb_spec (c - 1) 0); destruct k; try lia; cbn -[Z.of_nat Z.sub]; auto with zarith.
      + auto.
    - destruct d as [[|]| | | | |]; cbn; auto. }
  assert (E : snd (eol_post (COptions false false) g size d s) = zeromode (fst (eol_post (COptions false false) g size d s))).
  { apply quiet_top in Q'. revert Q'. unfold eol_post. cbn [text_else markup_if0 negb andb fst snd]. intros ->. now rewrite !orb_false_r. }
  rewrite E. split; [split; [exact Q'|exact Z]|]. destruct (next a d); [apply Z|exact Z].
Qed.
Lemma quiet_handled before size s : quiet (cppmode s) -> quiet (cppmode (else_handled before size s)).
Proof.
  unfold else_handled. intros Q. destruct (cppmode s) as [|it r] eqn:E; [now rewrite E|].
  destruct (Nat.eqb before (length (statesize it))); [now rewrite E|]. cbn [cppmode isclosed].
  assert (Q' := Forall_inv_tail Q). apply Forall_inv in Q.
  assert (Q2 : quiet (CppItem (removelast (statesize it) ++ [size]) (isclosed it) (skips it) :: r)) by (constructor; assumption).
  destruct (isclosed it); [|exact Q2]. unfold cleanup. destruct (_ || _); [exact Q'|exact Q2].
Qed.
Lemma fits0_handled a before size s : fits0 a s -> fits0 a (else_handled before size s).
Proof.
  intros (Q & F). split; [now apply quiet_handled|]. unfold else_handled. destruct (cppmode s) as [|it r]; [exact F|].
  destruct (Nat.eqb before (length (statesize it))); [exact F|]. destruct a; exact F.
Qed.
Lemma eol_eta o g size d s s' b : eol_post o g size d s = (s', b) -> s' = fst (eol_post o g size d s) /\ b = snd (eol_post o g size d s).
Proof. intros ->. auto. Qed.
Lemma text_lev {A} (R : A -> directive -> A -> Prop) (text : A -> bool) ds (lev : nat -> A) a : text a = false -> lev 0%nat = a -> (forall p, (length ds <= p)%nat -> lev p = a) ->
  (forall p d t, nth_error ds p = Some (d, t) -> R (lev p) d (lev (S p)) /\ t = text (lev (S p))) -> forall p, text_at ds p = text (lev p).
Proof.
  intros T L0 LE LS [|p]; cbn; [now rewrite L0, T|]. destruct (nth_error ds p) as [[d t]|] eqn:E.
  - apply LS in E. apply E.
  - apply nth_error_None in E. rewrite LE, T; [reflexivity|lia].
Qed.
Lemma none_lev (lev : nat -> option nat) p : text0 (lev p) = false -> lev p = None.
Proof. destruct (lev p); [discriminate|reflexivity]. Qed.
Theorem default_marked l : (forall d, In (Stray d) l -> stray d) -> forall l', parses (COptions false false) (source_marked false true l) 0 start l' ->
  as_marked (source_marked false true l) l'.
Proof.
  intros H. apply path_source in H. revert H. generalize (source_marked false true l). intros ds H.
  destruct (path_levels _ _ _ _ _ H) as (lev & L0 & LE & LS).
  assert (T : forall p, text_at ds p = text0 (lev p)) by exact (text_lev R0 text0 ds lev None eq_refl L0 LE LS).
  assert (LK : forall p s q s' l, looks (COptions false false) ds p s q s' l -> fits0 (lev p) s -> fits0 (lev q) s' /\ as_marked ds l).
  { induction 1 as [p s|p s d t size s' b q s'' l0 N E K IH|p s p' q s'' l0 T1 T2 K IH]; intros F.
    - split; [exact F|]. intros ? ? [].
    - destruct (LS _ _ _ N) as [R ->]. unfold R0 in R. destruct (fits0_step true size d s _ F) as [F' B]. rewrite R, E in F', B. cbn [fst snd] in F', B.
      destruct (IH F') as [G M]. split; [exact G|]. intros p' b' [X|X]; [|now apply M]. injection X as <- <-. rewrite B. eauto.
    - rewrite T in T1, T2. apply none_lev in T1, T2. apply IH. rewrite T2. now rewrite T1 in F. }
  assert (PR : forall p s l, parses (COptions false false) ds p s l -> fits0 (lev p) s -> as_marked ds l).
  { induction 1 as [p s|p s d t size s' b l' N E K IH|p s before size l' K IH|p s q s' l1 l2 T1 K T2 P IH]; intros F.
    - intros ? ? [].
    - destruct (LS _ _ _ N) as [R ->]. unfold R0 in R. destruct (fits0_step false size d s _ F) as [F' B]. rewrite R, E in F', B. cbn [fst snd] in F', B.
      intros p' b' [X|X]; [|now apply IH]. injection X as <- <-. rewrite B. eauto.
    - apply IH, fits0_handled, F.
    - destruct (LK _ _ _ _ _ K F) as [F' M]. rewrite T in T1, T2. apply none_lev in T1, T2. rewrite T2 in F'. rewrite T1 in IH.
      intros p' b' X. apply in_app_or in X as [X|X]; [now apply M|]. now apply IH. }
  intros l' P. eapply PR; [exact P|]. rewrite L0. split; [constructor|reflexivity].
Qed.

(** ** With #if 0 marked up *)
Lemma quiet_false g size d s : quiet (cppmode s) -> snd (eol_post (COptions false true) g size d s) = false.
Proof.
  intros Q. assert (Q' := quiet_step (COptions false true) g size d s eq_refl Q). apply quiet_top in Q'. revert Q'.
  unfold eol_post. cbn [text_else markup_if0 negb andb fst snd]. intros ->. reflexivity.
Qed.
Theorem all_marked_up ds l : parses (COptions false true) ds 0 start l -> forall p b, In (p, b) l -> b = false.
Proof.
  assert (LK : forall p s q s' l, looks (COptions false true) ds p s q s' l -> quiet (cppmode s) -> quiet (cppmode s') /\ forall p b, In (p, b) l -> b = false).
  { induction 1 as [p s|p s d t size s' b q s'' l' N E K IH|p s p' q s'' l' T1 T2 K IH]; intros F.
    - split; [exact F|]. intros ? ? [].
    - assert (Q' := quiet_step (COptions false true) true size d s eq_refl F). assert (B := quiet_false true size d s F). rewrite E in Q', B. cbn [fst snd] in Q', B. destruct IH as [G M]; [exact Q'|]. split; [exact G|]. intros p' b' [X|X]; [|now apply M in X].
      injection X as <- <-. exact B.
    - now apply IH. }
  assert (PR : forall p s l, parses (COptions false true) ds p s l -> quiet (cppmode s) -> forall p b, In (p, b) l -> b = false).
  { induction 1 as [p s|p s d t size s' b l' N E K IH|p s before size l' K IH|p s q s' l1 l2 T1 K T2 P IH]; intros F p0 b0 X.
    - destruct X.
    - assert (Q' := quiet_step (COptions false true) false size d s eq_refl F). assert (B := quiet_false false size d s F). rewrite E in Q', B. cbn [fst snd] in Q', B. destruct X as [X|X]; [injection X as <- <-; exact B|]. revert X. now apply IH.
    - revert X. apply IH. now apply quiet_handled.
    - destruct (LK _ _ _ _ _ K F) as [F' M]. apply in_app_or in X as [X|X]; [now apply M in X|]. revert X. now apply IH. }
  intros P. eapply PR; [exact P|constructor].
Qed.
