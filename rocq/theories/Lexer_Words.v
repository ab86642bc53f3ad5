(** Names and keywords are whole words. *)
From Verif Require Import Base Text_Model Text_Proofs3 Parser_Model Lexer_Model Lexer_Spec Lexer_Proofs Lexer_Proofs2 Lexer_Proofs3 Lexer_Proofs4 Lexer_Proofs6 Lexer_Proofs7 Lexer_Proofs8 Lexer_Proofs9 Lexer_Comments Lexer_Raw Lexer_Raw2.
Local Open Scope N_scope.

(** what a word is made of: letters, digits, underscore, dollar and the bytes of other scripts *)
Definition word_char (c : N) : Prop := 48 <= c <= 57 \/ 65 <= c <= 90 \/ 97 <= c <= 122 \/ c = 95 \/ c = 36 \/ 128 <= c.
Definition word (s : bytes) : Prop := s <> [] /\ Forall word_char s /\ ~ 48 <= hd 0 s <= 57.
Lemma word_name : forall c, name_char c = true <-> word_char c.
Proof. intros c. unfold name_char, name_start, digit, word_char. lia. Qed.
Lemma name_whole : forall lang lits m c r, Forall (fun c => name_char c = true) (m_text (name lang lits m c r)) ->
  match m_rest (name lang lits m c r) with x :: _ => name_char x = false | [] => True end.
Proof.
  intros lang lits m c r. unfold name. destruct (many name_char [c] r) as (t, r1) eqn:E. apply many_app in E as (w & -> & -> & W & V).
  destruct r1 as [|d r1]; [intros _; exact Logic.I|]. destruct (N.eq_dec d 34) as [->|N34].
  - assert (B : forall u, Forall (fun c => name_char c = true) (([c] ++ w) ++ [34] ++ u) -> False).
    { intros u F. rewrite Forall_app in F. destruct F as (_ & F). inversion F as [|? ? F1 _]; subst. discriminate F1. }
    destruct (one_of ["L"; "U"; "u"; "u8"]%string ([c] ++ w)); [intros F; exfalso; exact (B [] F)|].
    destruct (inLanguage lang CXX && _); [|intros _; reflexivity]. unfold raw_string_start. destruct (many delimiter_char [] r1) as (dl, r2). destruct (opt (is 40) _ r2) as (t2, r3) eqn:E2.
    apply opt_app in E2 as (o & -> & _). cbn [m_text]. intros F. exfalso. rewrite <- !app_assoc in F. exact (B (dl ++ o) ltac:(rewrite <- !app_assoc; exact F)).
  - match goal with |- Forall _ (m_text (Matched _ (m_text ?x) _ _ _)) -> _ => assert (E : x = Matched NAME ([c] ++ w) (d :: r1) (set_startline false m) None) end.
    { destruct d as [|d]; [reflexivity|]. repeat (destruct d as [d|d|]; try reflexivity; try (exfalso; apply N34; reflexivity)). }
    rewrite E. intros _. exact V.
Qed.
Lemma whole_word : forall w s l e a t b, tokens w s = (l, e) -> l = a ++ t :: b -> word (k_text t) -> k_type t <> COMMENT_TEXT -> ~ finishes t ->
  exists rest, s = text_of a ++ k_text t ++ rest /\ match rest with c :: _ => ~ word_char c | [] => True end.
Proof.
  intros w s l e a t b H E (NE & F & D) NC NF. destruct (scan_at (length s) w new_main None (Place 1 1) s _ _ _ _ _ (Nat.le_refl _) eq_refl H E) as (n2 & m1 & x1 & p1 & m2 & x2 & p2 & r & LR & A1 & NX & S & m3 & R).
  exists r. split; [exact S|]. destruct (k_text t) as [|c u] eqn:T; [contradiction|]. cbn [hd] in D. unfold next in NX. cbn [app] in NX. destruct x1 as [x1|].
  - exfalso. destruct (text_rule _ _ _ _ _ _) as (((k0, t0), r0), y0) eqn:TR. injection NX as N1 N2 N3 N4 N5. apply rule_app in TR as (v & TV & _ & _ & K & _ & VC & _); [|apply Nat.le_refl].
    destruct K as [->|[(-> & _)|(e0 & ->)]]; [congruence| |apply NF; eexists; symmetry; exact N1].
    destruct (VC eq_refl) as (z & Z & CZ). subst t0. rewrite Z in N2. injection N2 as -> _. inversion F as [|? ? Q _]; subst. unfold control in CZ. unfold word_char in Q. lia.
  - destruct (main_rule _ _ _ m1 c (u ++ r)) as [ma|] eqn:MR; [|discriminate NX]. injection NX as N1 N2 N3 N4 N5.
    pose proof (Forall_inv F) as Q. assert (NS : name_start c = true) by (apply word_name in Q; unfold name_char in Q; apply orb_prop in Q as [Q|Q]; [unfold digit in Q; lia|exact Q]).
    unfold main_rule in MR. assert (E1 : (c =? 34) = false) by (unfold word_char in Q; lia). assert (E2 : (c =? 39) = false) by (unfold word_char in Q; lia). assert (E3 : digit c = false) by (unfold digit; lia).
    rewrite E1, E2, E3, NS in MR. injection MR as MR. pose proof (name_whole (s_lang w) (literals (s_lang w) (s_macros w)) m1 c (u ++ r)) as NW. rewrite MR in NW. rewrite N2 in NW.
    assert (FN : Forall (fun c => name_char c = true) (c :: u)) by (eapply Forall_impl; [|exact F]; cbn beta; intros x X; apply word_name, X). specialize (NW FN).
    rewrite N3 in NW. destruct r as [|x r2]; [exact Logic.I|]. rewrite <- word_name, NW. discriminate.
Qed.
(** a raw string whose delimiter is not ASCII has no end; in a directive one ends with the line *)
Lemma raw_accent : exists l, tokens (Setting 2 [] 8) (txt "R""" ++ [195; 169] ++ txt "(a)" ++ [195; 169] ++ txt """; b") = (l, AtEnd) /\ map k_type l = [STRING_START; Ends RAW_STRING_END].
Proof. eexists. split; [vm_compute; reflexivity|reflexivity]. Qed.
Lemma raw_directive : exists l, tokens (Setting 2 [] 8) (txt "#define A R""(a" ++ [10] ++ txt "b)"" c") = (l, AtEnd) /\ In (Tok NAME (txt "b") 2 1) l.
Proof. eexists. split; [vm_compute; reflexivity|]. repeat (first [left; reflexivity|right]). Qed.
