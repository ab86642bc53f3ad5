(** Tokens of a whole source; their positions. *)
From Verif Require Import Base Text_Model Text_Proofs3 Parser_Model Parser_Spec Source_Whole Lexer_Model Lexer_Spec Lexer_Proofs Lexer_Proofs2 Lexer_Proofs3 Lexer_Proofs4.
Local Open Scope N_scope.

(** ** Every character in a token *)
Lemma tokens_cover : forall w s l e, tokens w s = (l, e) -> exists rest, s = text_of l ++ rest /\ Forall (fun t => k_text t <> []) l /\
    match e with
    | AtEnd => rest = []
    | NoRule u => u = rest /\ exists c r, rest = c :: r /\ (c < 256 -> c = 127 \/ c = 13)
    | DivisionByZero => s_tabsize w = 0 /\ In 9 rest
    | NoFuel => False
    end.
Proof.
  intros w s l e H. apply scan_ok in H as (rest & E & W & Q); [|apply Nat.le_refl|reflexivity]. exists rest. split; [exact E|]. split; [|exact Q].
  eapply Forall_impl; [|exact W]. intros t (X & _). exact X.
Qed.
Lemma tokens_end : forall w s, s_tabsize w <> 0 -> Forall (fun c => c < 256 /\ c <> 127 /\ c <> 13) s -> exists l, tokens w s = (l, AtEnd) /\ text_of l = s /\ Forall (fun t => k_text t <> []) l.
Proof.
  intros w s T F. destruct (tokens w s) as (l, e) eqn:E. exists l. destruct (tokens_cover _ _ _ _ E) as (rest & S & W & Q).
  destruct e as [|u| |].
  - subst rest. rewrite app_nil_r in S. auto.
  - destruct Q as (_ & c & r & -> & Q). rewrite Forall_forall in F. assert (I : In c s) by (rewrite S; apply in_or_app; right; left; reflexivity). destruct (F c I) as (B & N1 & N2). destruct (Q B); contradiction.
  - destruct Q; contradiction.
  - destruct Q.
Qed.
(** ** Control characters *)
Lemma tokens_controls : forall w s l e, tokens w s = (l, e) ->
  inLanguage (s_lang w) CXX = false \/ ~ occurs [82; 34] s \/ Forall (fun c => ~ control c) s ->
  Forall (fun t => (exists c, k_type t = CONTROL_CHAR /\ k_text t = [c] /\ control c) \/ k_type t <> CONTROL_CHAR /\ Forall (fun c => ~ control c) (k_text t)) l.
Proof.
  intros w s l e H SF. pose proof H as H0. apply scan_ok in H0 as (rest & E & W & _); [|apply Nat.le_refl|reflexivity].
  assert (U : Forall unmixed l).
  { assert (Q : (inLanguage (s_lang w) CXX = false \/ ~ occurs [82; 34] s) \/ Forall (fun c => ~ control c) s) by tauto. destruct Q as [Q|Q].
    - eapply scan_controls; [| |exact Q|exact H]; [reflexivity|]. intros (y & X & _). discriminate X.
    - apply Forall_forall. intros t I _. rewrite E in Q. apply Forall_app in Q as (Q & _). unfold text_of in Q. rewrite Forall_forall in *.
      intros c J. apply Q. apply in_concat. exists (k_text t). split; [apply in_map, I|exact J]. }
  rewrite Forall_forall in *. intros t I. destruct (W t I) as (_ & C). specialize (U t I). unfold unmixed in U.
  assert (D : k_type t = CONTROL_CHAR \/ k_type t <> CONTROL_CHAR) by (destruct (k_type t); try (left; reflexivity); right; discriminate).
  destruct D as [D|D]; [left|right; split; [exact D|exact (U D)]]. destruct (C D) as (c & X & Y). exists c. auto.
Qed.
Lemma parser_control : forall k, parser_type k = Lcontrol <-> k = CONTROL_CHAR.
Proof. intros k. split; [|intros ->; reflexivity]. intros H. destruct k as [| | | | | | | | | | | | | | | | | |m| | |n]; try discriminate H; try reflexivity. destruct m; discriminate H. Qed.
Lemma tokens_lexed : forall w s l e, tokens w s = (l, e) ->
  inLanguage (s_lang w) CXX = false \/ ~ occurs [82; 34] s \/ Forall (fun c => ~ control c) s -> lexed (parser_tokens l).
Proof.
  intros w s l e H SF. pose proof (tokens_controls w s l e H SF) as F. unfold lexed, parser_tokens. apply Forall_map. eapply Forall_impl; [|exact F]. cbn beta. intros t Q. cbn [l_type l_text].
  destruct Q as [(c & K & X & (Y & _))|(K & X)].
  - rewrite K. cbn. exists c. auto.
  - assert (G : Forall (fun c => 32 <= c \/ c = 9 \/ c = 10) (k_text t)). { eapply Forall_impl; [|exact X]. unfold control. cbn beta. intros c Q. lia. }
    destruct (parser_type (k_type t)) eqn:P; try exact G. apply parser_control in P. contradiction.
Qed.
Lemma tokens_source : forall l, source (parser_tokens l) = text_of l.
Proof. intros l. unfold source, parser_tokens, text_of. rewrite map_map. reflexivity. Qed.

(** ** Positions *)
Lemma steps_line : forall T t p q, steps T p t = Some q -> line q = line p + N.of_nat (count_occ N.eq_dec t 10).
Proof.
  intros T. induction t as [|c t IH]; intros p q H; cbn [steps] in H; [injection H as <-; cbn; lia|].
  destruct (step T p c) as [p1|] eqn:E; [|discriminate H]. rewrite (IH _ _ H). unfold step in E. destruct (N.eqb_spec c 10) as [->|N10].
  - injection E as <-. rewrite count_occ_cons_eq by reflexivity. cbn [line]. lia.
  - rewrite count_occ_cons_neq by assumption. destruct (c =? 9); [destruct (T =? 0); [discriminate E|]|]; injection E as <-; reflexivity.
Qed.
Lemma tab_stop : forall T c, T <> 0 -> 1 <= c -> ((c - 1) / T + 1) * T + 1 = c + (T - (c - 1) mod T).
Proof. intros T c NZ L. pose proof (N.div_mod (c - 1) T NZ) as D. pose proof (N.mod_lt (c - 1) T NZ) as M. nia. Qed.
Lemma steps_col : forall T U t p q, steps T p t = Some q -> 1 <= col p -> T = U \/ ~ In 9 t -> col q = column_from U (col p) t /\ 1 <= col q.
Proof.
  intros T U. induction t as [|c t IH]; intros p q H L D; cbn [steps] in H; [injection H as <-; cbn; auto|].
  destruct (step T p c) as [p1|] eqn:E; [|discriminate H]. cbn [column_from].
  assert (X : col p1 = (if c =? 10 then 1 else if c =? 9 then col p + (U - (col p - 1) mod U) else col p + 1) /\ 1 <= col p1).
  { unfold step in E. destruct (c =? 10); [injection E as <-; cbn; lia|]. destruct (N.eqb_spec c 9) as [->|N9].
    - destruct D as [->|D]; [|exfalso; apply D; left; reflexivity]. destruct (N.eqb_spec U 0); [discriminate E|]. injection E as <-. cbn [col]. rewrite tab_stop by assumption. split; [reflexivity|lia].
    - injection E as <-. cbn. lia. }
  destruct X as (X & Y). rewrite <- X. apply IH; [exact H|exact Y|]. destruct D as [D|D]; [left; exact D|right]. intros I. apply D. right. exact I.
Qed.
Lemma column_app : forall T a b c, column_from T c (a ++ b) = column_from T (column_from T c a) b.
Proof. intros T. induction a as [|x a IH]; intros b c; cbn [app column_from]; [reflexivity|]. apply IH. Qed.
(** tabs where the column is counted with the tab stop that was set: outside comments and literals *)
Definition tab_outside (t : tok) : Prop := In 9 (k_text t) -> k_type t = WS.
Lemma text_token : forall w m x p s k t r m2 y, next w m (Some x) p s = Some (k, t, r, m2, y) -> k <> WS.
Proof.
  intros w m x p s k t r m2 y H. unfold next in H. destruct s as [|c s]; [discriminate H|].
  destruct (text_rule (length (c :: s)) x true 0 [] (c :: s)) as (((k0, t0), r0), y0) eqn:E. injection H as <- <- <- <- <-.
  apply rule_app in E as (v & _ & _ & _ & K & _); [|apply Nat.le_refl]. destruct K as [->|[(-> & _)|(e & ->)]]; discriminate.
Qed.
Lemma scan_place : forall n w m x p s l e a t b, scan n w m x p s = (l, e) -> l = a ++ t :: b -> 1 <= col p ->
  k_line t = line p + N.of_nat (count_occ N.eq_dec (text_of a) 10) /\
  (s_tabsize w = 8 \/ Forall tab_outside a -> k_col t = column_from (s_tabsize w) (col p) (text_of a)).
Proof.
  induction n as [|n IH]; intros w m x p s l e a t b H L C.
  { destruct s; cbn in H; injection H as <- <-; destruct a; discriminate L. }
  destruct s as [|c s]; [cbn in H; injection H as <- <-; destruct a; discriminate L|].
  cbn [scan] in H. destruct (next w m x p (c :: s)) as [((((k, tx), r), m2), y)|] eqn:NX; [|injection H as <- <-; destruct a; discriminate L].
  destruct (steps _ p tx) as [q|] eqn:S; [|injection H as <- <-; destruct a; discriminate L].
  match type of H with (let (_, _) := ?x in _) = _ => destruct x as (l2, e2) eqn:R end. injection H as <- <-.
  destruct a as [|t0 a].
  - injection L as <- <-. cbn [k_line k_col]. cbn. split; [lia|reflexivity].
  - injection L as <- L. change (text_of (Tok k tx (line p) (col p) :: a)) with (tx ++ text_of a). rewrite count_occ_app, column_app.
    pose proof (steps_line _ _ _ _ S) as SL.
    assert (Q : s_tabsize w = 8 \/ tab_outside (Tok k tx (line p) (col p)) -> match x with None => s_tabsize w | Some _ => TEXT_TABSIZE end = s_tabsize w \/ ~ In 9 tx).
    { intros [Q|Q]; destruct x as [x|]; auto. right. intros I. apply (text_token _ _ _ _ _ _ _ _ _ _ NX). exact (Q I). }
    assert (CQ : 1 <= col q). { destruct (in_dec N.eq_dec 9 tx) as [I|I]; [exact (proj2 (steps_col _ _ _ _ _ S C (or_introl eq_refl)))|exact (proj2 (steps_col _ 0 _ _ _ S C (or_intror I)))]. }
    destruct (IH _ _ _ _ _ _ _ _ _ _ R L CQ) as (I1 & I2). split; [rewrite I1, SL; lia|]. intros D.
    destruct (steps_col _ (s_tabsize w) _ _ _ S C) as (CE & _). { apply Q. destruct D as [D|D]; [left; exact D|right; inversion D; assumption]. }
    rewrite I2, CE; [reflexivity|]. destruct D as [D|D]; [left; exact D|right; inversion D; assumption].
Qed.
Lemma tokens_line : forall w s l e a t b, tokens w s = (l, e) -> l = a ++ t :: b -> k_line t = line_after (text_of a).
Proof. intros w s l e a t b H L. destruct (scan_place _ _ _ _ _ _ _ _ _ _ _ H L ltac:(cbn; lia)) as (X & _). rewrite X. unfold line_after. cbn [line]. lia. Qed.
Lemma tokens_column : forall w s l e a t b, tokens w s = (l, e) -> l = a ++ t :: b -> s_tabsize w = 8 \/ Forall tab_outside a -> k_col t = column_after (s_tabsize w) (text_of a).
Proof. intros w s l e a t b H L D. destruct (scan_place _ _ _ _ _ _ _ _ _ _ _ H L ltac:(cbn; lia)) as (_ & X). exact (X D). Qed.
