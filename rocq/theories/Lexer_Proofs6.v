(** Comments and literals: the text lexer and the states of [regions]. *)
From Verif Require Import Base Text_Model Text_Proofs3 Parser_Model Lexer_Model Lexer_Spec Lexer_Proofs Lexer_Proofs2 Lexer_Proofs3 Lexer_Proofs4.
Local Open Scope N_scope.

Definition of_mode (e : mode) : region :=
  match e with
  | LINE_COMMENT_END | LINE_DOXYGEN_COMMENT_END => Line
  | BLOCK_COMMENT_END | JAVADOC_COMMENT_END | DOXYGEN_COMMENT_END => Block
  | CHAR_END => Chr
  | STRING_END | RAW_STRING_END => Str
  end.
(** what follows in a region after the character [p] *)
Definition after (st : region) (p : N) (s : bytes) : list region :=
  match st with
  | Block => match s with c :: r => if (p =? 42) && (c =? 47) then Block :: regions Code r else regions Block s | [] => [] end
  | Str => if p =? 92 then match s with _ :: r => Str :: regions Str r | [] => [] end else regions Str s
  | Chr => if p =? 92 then match s with _ :: r => Chr :: regions Chr r | [] => [] end else regions Chr s
  | _ => regions st s
  end.
Lemma after_nil : forall st p, after st p [] = [].
Proof. intros [] p; cbn; try reflexivity; destruct (p =? 92); reflexivity. Qed.
Lemma after_start : forall st s, after st 0 s = regions st s.
Proof. intros [] s; try reflexivity. destruct s; reflexivity. Qed.
Lemma after_line : forall p c r, after Line p (c :: r) = if c =? 10 then Code :: regions Code r else Line :: after Line c r.
Proof. reflexivity. Qed.
Lemma regions_block : forall c r, regions Block (c :: r) = Block :: after Block c r.
Proof.
  intros c [|d r]; [reflexivity|]. cbn [regions after]. destruct (c =? 42) eqn:E; cbn [andb]; [|reflexivity]. destruct (d =? 47); reflexivity.
Qed.
Lemma after_block : forall p c r, after Block p (c :: r) = Block :: (if (p =? 42) && (c =? 47) then regions Code r else after Block c r).
Proof. intros p c r. change (after Block p (c :: r)) with (if (p =? 42) && (c =? 47) then Block :: regions Code r else regions Block (c :: r)). destruct (_ && _); [reflexivity|apply regions_block]. Qed.
Definition turned (p c : N) : N := if c =? 92 then if p =? 92 then 0 else 92 else c.
Lemma after_str : forall p c r, after Str p (c :: r) = if negb (p =? 92) && (c =? 34) then StrEnd :: regions Code r else Str :: after Str (turned p c) r.
Proof.
  intros p c r. unfold turned. cbn [after]. destruct (p =? 92); cbn [negb andb].
  - destruct (N.eqb_spec c 92) as [->|NE]; [reflexivity|]. destruct (N.eqb_spec c 92); [contradiction|reflexivity].
  - destruct (N.eqb_spec c 34) as [->|N34]; [reflexivity|]. cbn [regions]. destruct (N.eqb_spec c 92) as [->|NE]; [destruct r; reflexivity|].
    destruct (N.eqb_spec c 34); [contradiction|]. destruct (N.eqb_spec c 92); [contradiction|reflexivity].
Qed.
Lemma after_chr : forall p c r, after Chr p (c :: r) = Chr :: (if negb (p =? 92) && (c =? 39) then regions Code r else after Chr (turned p c) r).
Proof.
  intros p c r. unfold turned. cbn [after]. destruct (p =? 92); cbn [negb andb].
  - destruct (N.eqb_spec c 92) as [->|NE]; [reflexivity|]. destruct (N.eqb_spec c 92); [contradiction|reflexivity].
  - destruct (N.eqb_spec c 39) as [->|N39]; [reflexivity|]. cbn [regions]. destruct (N.eqb_spec c 92) as [->|NE]; [destruct r; reflexivity|].
    destruct (N.eqb_spec c 39); [contradiction|]. destruct (N.eqb_spec c 92); [contradiction|reflexivity].
Qed.
(** a run of double quotes ends nothing but a string *)
Lemma after_quotes : forall st w r, st = Line \/ st = Block \/ st = Chr -> Forall (fun d => d = 34) w -> after st 34 (w ++ r) = repeat st (length w) ++ after st 34 r.
Proof.
  intros st w r D F. induction F as [|d w -> F IH]; [reflexivity|]. cbn [app length repeat].
  destruct D as [->|[->| ->]]; [rewrite after_line|rewrite after_block|rewrite after_chr]; unfold turned; cbn [N.eqb Pos.eqb negb andb app]; rewrite <- IH; auto.
Qed.
(** after a control character, or before one, the character before does not matter *)
Lemma after_control : forall st c s, control c -> after st c s = after st 0 s.
Proof.
  intros st c s (L & _). assert (E1 : (c =? 42) = false) by lia. assert (E2 : (c =? 92) = false) by lia. destruct st; cbn [after]; rewrite ?E1, ?E2; try reflexivity; destruct s; reflexivity.
Qed.
Lemma before_control : forall st p c s, control c -> after st p (c :: s) = after st 0 (c :: s).
Proof.
  intros st p c s (L & _). assert (E1 : (c =? 47) = false) by lia. assert (E2 : (c =? 92) = false) by lia. assert (E3 : (c =? 34) = false) by lia. assert (E4 : (c =? 39) = false) by lia.
  destruct st; cbn [after]; try reflexivity; rewrite ?E1, ?andb_false_r; cbn [regions N.eqb]; rewrite ?E2, ?E3, ?E4; destruct (p =? 92); reflexivity.
Qed.

(** ** What the tokens are compared on *)
Lemma nth_app_r : forall (A : Type) (a b : list A) n, length a = n -> forall i, nth_error (a ++ b) (n + i) = nth_error b i.
Proof. intros A a b n <- i. rewrite nth_error_app2 by lia. f_equal. lia. Qed.
Lemma broken_app : forall a b la lb, length a = length la -> broken b lb -> broken (a ++ b) (la ++ lb).
Proof. intros a b la lb L (i & X & Y). exists (length a + i)%nat. rewrite nth_app_r by reflexivity. rewrite (nth_app_r _ la lb (length a)) by (symmetry; exact L). auto. Qed.
Lemma doubled_app : forall a b la lb, length a = length la -> doubled b lb -> doubled (a ++ b) (la ++ lb).
Proof. intros a b la lb L (i & X & Y). exists (length a + i)%nat. rewrite (nth_app_r _ la lb (length a)) by (symmetry; exact L). split; [exact X|]. replace (S (length a + i)) with (length a + S i)%nat by lia. rewrite nth_app_r by reflexivity. exact Y. Qed.
(** nothing in the way *)
Definition clear_of (pre : bool) (s : bytes) (ls : list region) : Prop := ~ doubled s ls /\ (pre = true -> ~ broken s ls).
Lemma clear_app : forall pre a b la lb, length a = length la -> clear_of pre (a ++ b) (la ++ lb) -> clear_of pre b lb.
Proof. intros pre a b la lb L (C1 & C2). split; [intros Q; apply C1, doubled_app; assumption|intros P Q; apply (C2 P), broken_app; assumption]. Qed.
