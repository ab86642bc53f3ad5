(** C32: fields that a section has not; the number of queries. *)
From Verif Require Import Base Text_Model Text_Spec Text_Proofs Writer_Model Writer_Spec Writer_Proofs2
  Input_Model Input_Spec Input_Proofs Input_Proofs2 Pretty_Model Pretty_Spec Pretty_Proofs Pretty_Proofs2.

Lemma allowed_not (c : N) l : ~ In c l -> existsb (N.eqb c) l = false.
Proof.
  intros H. destruct (existsb (N.eqb c) l) eqn:E; [|reflexivity]. apply existsb_exists in E as [x [I E]].
  apply N.eqb_eq in E. subst x. contradiction.
Qed.
Lemma parse_bad allowed ns s c rest : no_byte 37 s -> ~ In c allowed -> c <> 37%N -> c <> 115%N ->
  parse_template allowed ns (s ++ 37%N :: c :: rest) = BadFormat (S (length s)).
Proof.
  intros NP NI P S'. unfold parse_template. cbn [parse_section]. rewrite (strchr_here s 37%N (c :: rest) NP).
  replace (skipn (S (length s)) (s ++ 37%N :: c :: rest)) with (c :: rest).
  2:{ change (37%N :: c :: rest) with ([37%N] ++ c :: rest). rewrite app_assoc.
      replace (S (length s)) with (length (s ++ [37%N])) by (rewrite app_length; cbn; lia). rewrite skipn_app, skipn_all, Nat.sub_diag. reflexivity. }
  replace (c =? 37)%N with false by (symmetry; apply N.eqb_neq; exact P). replace (c =? 115)%N with false by (symmetry; apply N.eqb_neq; exact S').
  cbn [orb]. rewrite (allowed_not _ _ NI). reflexivity.
Qed.
Lemma refused_header stray a only xml s c h x y b z w f :
  no_byte 37 s -> ~ In c header_fields -> c <> 37%N -> c <> 115%N ->
  no_brace ((s ++ 37%N :: c :: h) ++ [x; y] ++ b ++ [z]) -> x <> 37%N -> z <> 37%N ->
  pretty stray a only xml ((s ++ 37%N :: c :: h) ++ [x; 123; y]%N ++ b ++ [z; 125; w]%N ++ f) = Ok (FormatError 1 (S (length s))).
Proof.
  intros NP NI P S' NB X Z. unfold pretty. rewrite (split_three stray _ x y b z w f NB X Z). cbn [obind tm_header parse_optional].
  rewrite parse_bad by assumption. reflexivity.
Qed.
Lemma refused_body stray a only xml s c b :
  no_byte 37 s -> ~ In c body_fields -> c <> 37%N -> c <> 115%N -> no_brace (s ++ 37%N :: c :: b) -> stray <> 37%N ->
  pretty stray a only xml (s ++ 37%N :: c :: b) = Ok (FormatError 2 (S (length s))).
Proof.
  intros NP NI0 P S' NB X. assert (NI : ~ In c body_args) by (intros I; apply NI0; cbn in I |- *; tauto). unfold pretty. rewrite (split_one stray _ NB X). cbn [obind tm_header tm_body parse_optional].
  rewrite parse_bad by assumption. reflexivity.
Qed.
Lemma refused_footer stray a only xml y b z w s c f : ma_namespaces a <> [] -> section_ok unit_fields b ->
  no_byte 37 s -> ~ In c footer_fields -> c <> 37%N -> c <> 115%N -> no_brace ([y] ++ frender b ++ [z]) -> z <> 37%N ->
  pretty stray a only xml ([123; y]%N ++ frender b ++ [z; 125; w]%N ++ s ++ 37%N :: c :: f) = Ok (FormatError 3 (S (length s))).
Proof.
  intros NN OB NP NI P S' NB Z. pose proof (ns_pos a NN) as NS. unfold pretty. rewrite (split_two stray y (frender b) z w _ NB Z).
  cbn [obind tm_header tm_body tm_footer parse_optional]. rewrite (parse_ok body_args _ b NS (ok_more _ _ _ sub_body (proj1 OB))).
  rewrite parse_bad by assumption. reflexivity.
Qed.
Lemma counted q : (count_queries q =? 1) = (number_asked q =? 1).
Proof. destruct q as [[] [] [] [] [] [] []]; reflexivity. Qed.
Lemma metadata_counted stray a only xml q : only = 0 \/ xml = true -> ma_namespaces a <> [] ->
  let one := number_asked q =? 1 in
  show_metadata stray a only xml q =
  Ok (Printed (show_lines one (asked_header a q) ++ concat (map (fun u => show_lines one (asked_unit q u)) (ma_units a)))).
Proof. intros H N one. unfold one. rewrite <- counted. exact (metadata_shown stray a only xml q H N). Qed.
