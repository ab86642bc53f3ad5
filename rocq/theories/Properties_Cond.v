(** Conditional compilation (C54): which parts are left as text. *)
From Verif Require Import Base Lexer_Model Lexer_Examples Cond_Model Cond_Spec Cond_Proofs Cond_Proofs2 Cond_Examples.
Local Open Scope N_scope.

(** Without options: what is text is the first branch of #if 0, with all in it, and nothing else; for every source, whatever is nested and
    also with #else and #endif that have no #if, whatever the parser looks ahead at and whatever its mode stack. *)
Theorem C54_default : forall l, (forall d, In (Stray d) l -> stray d) -> forall l', parses (COptions false false) (source_marked false true l) 0 start l' ->
  as_marked (source_marked false true l) l'.
Proof. exact default_marked. Qed.
Print Assumptions C54_default.
(** With #if 0 marked up: nothing is text, whatever the directives. *)
Theorem C54_markup_if0 : forall ds l, parses (COptions false true) ds 0 start l -> forall p b, In (p, b) l -> b = false.
Proof. exact all_marked_up. Qed.
Print Assumptions C54_markup_if0.
(** With #else as text: all but the first branch, or but the first two for #if 0. Not for every source: with no #else and no #if 0 in a
    branch that is text as an #else, and no #else of #if 0 in the live #else of an #if 0. The full property is without [simple]. *)
Theorem C54_text_else_partial : forall b, simple false b = true -> forall l, parses (COptions true false) (marked true true false b) 0 start l ->
  as_marked (marked true true false b) l.
Proof. exact else_marked. Qed.
Print Assumptions C54_text_else_partial.
(** An #else nested in an #else left as text: what follows the inner #endif is marked up, though in the outer #else. *)
Theorem C54_nested_else_refuted : exists l, parses (COptions true false) (marked true true false nested_else) 0 start l /\
  In (4%nat, false) l /\ nth_error (marked true true false nested_else) 4 = Some (Dendif, true).
Proof. exact nested_else_wrong. Qed.
Print Assumptions C54_nested_else_refuted.
(** So with an #if 0 in it. *)
Theorem C54_zero_in_else_refuted : exists l, parses (COptions true false) (marked true true false zero_in_else) 0 start l /\
  In (3%nat, false) l /\ nth_error (marked true true false zero_in_else) 3 = Some (Dendif, true).
Proof. exact zero_in_else_wrong. Qed.
Print Assumptions C54_zero_in_else_refuted.
(** The #else of an #if 0 in the #else of an #if 0, when blocks were closed between: live code is left as text. *)
Theorem C54_live_refuted : exists l, parses (COptions true false) (marked true true false live_in_live) 0 start l /\
  In (3%nat, true) l /\ nth_error (marked true true false live_in_live) 3 = Some (Delse, false).
Proof. exact live_in_live_wrong. Qed.
Print Assumptions C54_live_refuted.
(** With both options, after look-ahead over an #if 0: an #else is marked up. *)
Theorem C54_look_ahead_refuted : exists l, parses (COptions true true) (marked true false false zero_twice) 0 start l /\
  In (3%nat, false) l /\ nth_error (marked true false false zero_twice) 3 = Some (Delse, true).
Proof. exact looked_wrong. Qed.
Print Assumptions C54_look_ahead_refuted.
(** An #if is taken for #if 0 exactly if the first token of its condition is the constant 0. *)
Theorem C54_zero : forall l, zero_condition l = true <->
  exists ws c rest, l = ws ++ c :: rest /\ Forall (fun t => k_type t = WS) ws /\ k_type c = CONSTANTS /\ k_text c = txt "0".
Proof. exact zero_iff. Qed.
Print Assumptions C54_zero.
(** #if 0 || X is taken for #if 0, and #if (0) is not. *)
Theorem C54_condition_refuted : exists p i l, fst (tokens cxx (txt "#if 0 || X" ++ [10])) = p :: i :: l /\ zero_condition l = true.
Proof. exact zero_or. Qed.
Print Assumptions C54_condition_refuted.
(** An apostrophe in the text left out hides the #endif, and all after it. *)
Theorem C54_apostrophe_refuted : exists l, tokens cxx (txt "#if 0" ++ [10] ++ txt "don't" ++ [10] ++ txt "#endif" ++ [10] ++ txt "int a;" ++ [10]) = (l, AtEnd) /\
  length (filter (fun t => is_preproc (k_type t)) l) = 1%nat.
Proof. exact apostrophe. Qed.
Print Assumptions C54_apostrophe_refuted.
Example C54_example : simple false usual = true /\ stray Delse /\
  (exists l, parses (COptions true false) (marked true true false usual) 0 start l /\ length l = 17%nat /\ In (1%nat, true) l /\ In (5%nat, false) l /\ In (12%nat, true) l) /\
  (exists l, parses (COptions false false) (source_marked false true [Stray Dendif; Good (Cond If0 Nothing (Branch Else Nothing Endif)); Stray Delse]) 0 start l /\ l = [(0, false); (1, true); (2, false); (3, false); (4, false)]%nat).
Proof.
  split; [reflexivity|]. split; [exact Logic.I|]. split.
  - eexists. split; [apply (runs _ _ (repeat 1 20))|]. vm_compute. auto 20.
  - eexists. split; [apply (runs _ _ (repeat 1 20))|]. reflexivity.
Qed.
