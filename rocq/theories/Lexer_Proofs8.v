(** The tokens of comments and literals have the extent that [regions] gives. *)
From Verif Require Import Base Text_Model Text_Proofs3 Parser_Model Lexer_Model Lexer_Spec Lexer_Proofs Lexer_Proofs2 Lexer_Proofs3 Lexer_Proofs4 Lexer_Proofs6 Lexer_Proofs7.
Local Open Scope N_scope.

Definition ends (k : tk) : bool := match k with Ends _ => true | _ => false end.
Lemma same_textual : forall x, Textual (t_mode x) (t_onpreprocline x) (t_noescape x) (t_delimiter x) = x.
Proof. intros []. reflexivity. Qed.
Lemma rule_labels : forall n x first p t s k t2 r y, (length s <= n)%nat -> t_mode x <> RAW_STRING_END -> t_noescape x = false ->
  clear_of (t_onpreprocline x) s (after (of_mode (t_mode x)) p s) -> (first = false -> of_mode (t_mode x) = Line -> hd 0 s <> 10) ->
  text_rule n x first p t s = (k, t2, r, y) ->
  exists w ls, t2 = t ++ w /\ s = w ++ r /\ length ls = length w /\
    after (of_mode (t_mode x)) p s = ls ++ (match y with None => regions Code r | Some _ => after (of_mode (t_mode x)) 0 r end) /\
    (forall z, y = Some z -> z = x) /\
    (map plain ls = repeat (of_mode (t_mode x)) (length w) /\ (ends k = true -> w <> [] /\ w <> [10]) \/ first = true /\ w = [10] /\ ls = [Code] /\ ends k = true).
Proof.
  induction n as [|n IH]; intros x first p t s k t2 r y L NR NE CL F H.
  { destruct s; [|cbn in L; lia]. cbn [text_rule] in H. injection H as <- <- <- <-. exists [], []. rewrite !after_nil, app_nil_r. repeat (split; [reflexivity|]). split; [congruence|]. left. split; [reflexivity|discriminate]. }
  destruct s as [|c s].
  { cbn [text_rule] in H. injection H as <- <- <- <-. exists [], []. rewrite !after_nil, app_nil_r. repeat (split; [reflexivity|]). split; [congruence|]. left. split; [reflexivity|discriminate]. }
  cbn [text_rule] in H. destruct (_ || first) eqn:A.
  2: { injection H as <- <- <- <-. exists [], []. rewrite app_nil_r. split; [reflexivity|]. split; [reflexivity|]. split; [reflexivity|].
       split; [apply before_control; unfold control; lia|]. split; [congruence|]. left. split; [reflexivity|discriminate]. }
  destruct (text_pass x p c t s) as ((((k1, t1), r1), q1), e1) eqn:E. pose proof E as E0. apply pass_app in E0 as (w0 & _ & _ & K & _).
  apply (pass_labels _ _ _ _ _ _ _ _ _ _ NR NE CL) in E as (-> & KQ & KL & w & ls & -> & -> & LL & AA & D). rewrite same_textual in H.
  destruct K as [->|[(-> & _)|(e & ->)]].
  - apply IH in H as (v & lv & -> & -> & LV & AV & Y & DV).
    + destruct D as [(D1 & D2)|(_ & _ & _ & _ & (e & D))]; [|discriminate D].
      exists (c :: w ++ v), (ls ++ lv). split; [rewrite <- app_assoc; reflexivity|]. split; [cbn [app]; rewrite <- app_assoc; reflexivity|].
      split; [rewrite app_length, LL, LV; cbn [length]; rewrite app_length; lia|]. split; [rewrite AA, AV, app_assoc; reflexivity|]. split; [exact Y|].
      destruct DV as [(V1 & V2)|(V0 & _)]; [|discriminate V0]. left. split; [rewrite map_app, D1, V1, <- repeat_app; cbn [length]; rewrite app_length; f_equal; lia|].
      intros Q. destruct (V2 Q) as (Q1 & _). split; [discriminate|]. intros QE. injection QE as _ QE. destruct w; [destruct v; [contradiction|discriminate QE]|discriminate QE].
    + cbn [length] in L. rewrite app_length in L. lia.
    + exact NR.
    + exact NE.
    + eapply (clear_app _ (c :: w)); [|cbn [app]; rewrite <- AA; exact CL]. cbn [length]. rewrite LL. reflexivity.
    + intros _. exact (KL eq_refl).
  - injection H as <- <- <- <-. exists (c :: w), ls. split; [reflexivity|]. split; [reflexivity|]. split; [exact LL|]. split; [rewrite AA; f_equal; apply after_control, KQ; reflexivity|]. split; [congruence|].
    destruct D as [(D1 & D2)|(_ & _ & _ & _ & (e & D))]; [|discriminate D]. left. split; [exact D1|discriminate].
  - injection H as <- <- <- <-. exists (c :: w), ls. split; [reflexivity|]. split; [reflexivity|]. split; [exact LL|]. split; [exact AA|]. split; [congruence|].
    destruct D as [(D1 & D2)|(-> & -> & -> & SL & _)]; [left|right].
    + split; [exact D1|]. intros _. split; [discriminate|]. intros Q. injection Q as -> _. destruct (D2 eq_refl) as (Q & _). discriminate Q.
    + destruct first; [auto|]. exfalso. apply (F eq_refl SL). reflexivity.
Qed.

(** ** The main lexer *)
Lemma code_regions : forall t r, Forall code_char t -> regions Code (t ++ r) = repeat Code (length t) ++ regions Code r.
Proof.
  intros t r F. induction F as [|c t (C1 & C2 & C3 & _) F IH]; [reflexivity|]. cbn [app length repeat]. rewrite <- IH. cbn [regions].
  destruct (N.eqb_spec c 34); [contradiction|]. destruct (N.eqb_spec c 39); [contradiction|]. destruct (N.eqb_spec c 47); [contradiction|]. cbn [andb].
  destruct (t ++ r); reflexivity.
Qed.
Lemma control_regions : forall c r, control c -> regions Code (c :: r) = Code :: regions Code r.
Proof.
  intros c r (L & _). cbn [regions]. destruct (N.eqb_spec c 34); [lia|]. destruct (N.eqb_spec c 39); [lia|]. destruct (N.eqb_spec c 47); [lia|]. cbn [andb]. destruct r; reflexivity.
Qed.
Lemma macro_none : forall ms t, (forall m, In m ms -> fst m <> t) -> macro_of ms t = None.
Proof.
  induction ms as [|(n, ty) ms IH]; intros t H; cbn [macro_of]; [reflexivity|]. rewrite IH; [|intros m I; apply H; right; exact I].
  destruct (beqb n t) eqn:Q; [|reflexivity]. apply beqb_true in Q. exfalso. exact (H (n, ty) (or_introl eq_refl) Q).
Qed.
Lemma simple_none : forall ms t b, simple_macros ms -> In b t -> b = 47 \/ b = 34 \/ b = 39 \/ b = 35 -> macro_of ms t = None.
Proof.
  intros ms t b S I B. apply macro_none. intros m J E. unfold simple_macros in S. rewrite Forall_forall in S. destruct (S m J) as (S1 & S2 & S3 & S4). subst t.
  destruct B as [->|[->|[->| ->]]]; contradiction.
Qed.
(** no keyword has these texts *)
Lemma keyword_none : forall lang t, existsb (fun e => beqb (fst (fst e)) t) keyword_map = false -> keyword_of lang t = None.
Proof.
  intros lang t H. unfold keyword_of. destruct (find _ _) as [((n, k), l)|] eqn:F; [|reflexivity]. apply find_some in F as (I & Q). apply in_rev in I. apply andb_prop in Q as (Q & _).
  exfalso. assert (X : existsb (fun e => beqb (fst (fst e)) t) keyword_map = true) by (apply existsb_exists; exists (n, k, l); auto). congruence.
Qed.
Lemma retype_none : forall lang ms t k b, existsb (fun e => beqb (fst (fst e)) t) keyword_map = false -> simple_macros ms -> In b t -> b = 47 \/ b = 34 \/ b = 39 \/ b = 35 -> retype lang ms t k = k.
Proof. intros lang ms t k b K S I B. unfold retype, literals. rewrite (keyword_none _ _ K), (simple_none _ _ _ S I B). reflexivity. Qed.
Lemma retype_string : forall lang ms t, simple_macros ms -> In 34 t -> retype lang ms t STRING_START = STRING_START.
Proof.
  intros lang ms t S I. unfold retype. destruct (literal_string lang ms t I) as [E|E]; [|rewrite E; reflexivity|rewrite E; reflexivity].
  eapply Forall_impl; [|exact S]. cbn beta. tauto.
Qed.
Lemma table_39 : forallb (fun e : bytes * tk * N => negb (existsb (N.eqb 39) (fst (fst e)))) keyword_map = true.
Proof. vm_compute. reflexivity. Qed.
Lemma retype_char : forall lang ms t, simple_macros ms -> In 39 t -> retype lang ms t CHAR_START = CHAR_START.
Proof.
  intros lang ms t S I. apply (retype_none _ _ _ _ 39); auto. apply not_true_iff_false. intros H. apply existsb_exists in H as (e & J & Q). apply beqb_true in Q.
  pose proof table_39 as T. rewrite forallb_forall in T. specialize (T e J). rewrite Q in T. apply negb_true_iff in T. assert (X : existsb (N.eqb 39) t = true) by (apply existsb_exists; exists 39; auto). congruence.
Qed.
Lemma slash_kinds : forall lang, In lang languages -> keyword_of lang [47] = Some OPERATORS /\ keyword_of lang [47; 61] = Some (Kw (txt "ASSIGNMENT")).
Proof. intros lang I. cbn in I. repeat (destruct I as [<-|I]; [split; vm_compute; reflexivity|]). destruct I. Qed.
