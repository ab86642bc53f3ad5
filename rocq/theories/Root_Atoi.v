(** C43: numbers read by atoi. *)
From Verif Require Import Base Text_Model Text_Spec Api_Model Writer_Model Root_Model Root_AnySpec.
Local Open Scope N_scope.

Lemma digits_value_spec ds : forall v rest, Forall (fun c => 48 <= c <= 57) ds -> (match rest with c :: _ => c < 48 \/ 57 < c | [] => True end) ->
  digits_value v (ds ++ rest) = fold_left (fun v c => (10 * v + Z.of_N (c - 48))%Z) ds v.
Proof.
  induction ds as [|c r IH]; intros v rest D R; cbn [app fold_left].
  - destruct rest as [|c r]; [reflexivity|]. cbn [digits_value].
    replace ((48 <=? c) && (c <=? 57)) with false; [reflexivity|]. symmetry. apply andb_false_iff.
    destruct R as [R|R]; [left; apply N.leb_gt; exact R|right; apply N.leb_gt; exact R].
  - cbn [digits_value]. pose proof (Forall_inv D) as C. cbn in C.
    replace ((48 <=? c) && (c <=? 57)) with true; [|symmetry; apply andb_true_iff; split; apply N.leb_le; lia].
    apply IH; [exact (Forall_inv_tail D)|exact R].
Qed.
Lemma fold_dec ds : forall v, fold_left (fun v c => (10 * v + Z.of_N (c - 48))%Z) ds (Z.of_N v) = Z.of_N (fold_left (fun v c => 10 * v + (c - 48)) ds v).
Proof.
  induction ds as [|c r IH]; intros v; cbn [fold_left]; [reflexivity|]. rewrite <- IH. f_equal. lia.
Qed.
Lemma white_blank c : white_char c -> is_blank c = true.
Proof. intros H. cbn in H. repeat (destruct H as [<-|H]; [reflexivity|]). destruct H. Qed.
Lemma atoi_skips b t : Forall white_char b -> atoi (b ++ t) = atoi t.
Proof. induction 1 as [|c r H F IH]; [reflexivity|]. cbn [app atoi]. rewrite (white_blank _ H). exact IH. Qed.
Lemma digit_plain c : 48 <= c <= 57 -> is_blank c = false /\ (c =? 45) = false /\ (c =? 43) = false.
Proof.
  intros H. unfold is_blank. repeat split; try (apply N.eqb_neq; lia).
  apply orb_false_iff. split; [apply N.eqb_neq; lia|]. apply andb_false_iff. right. apply N.leb_gt. lia.
Qed.
Lemma atoi_number b s k ds n rest : Forall white_char b -> signed s k -> numeral ds n -> (match rest with c :: _ => c < 48 \/ 57 < c | [] => True end) ->
  atoi (b ++ s ++ ds ++ rest) = (k * Z.of_N n)%Z.
Proof.
  intros B S (NE & D & V) R. rewrite atoi_skips by exact B.
  assert (X : digits_value 0 (ds ++ rest) = Z.of_N n).
  { rewrite digits_value_spec by assumption. change 0%Z with (Z.of_N 0). rewrite fold_dec. f_equal. exact V. }
  destruct S as [[-> ->]|[[-> ->]|[-> ->]]].
  - cbn [app]. destruct ds as [|c r]; [contradiction|]. destruct (digit_plain c (Forall_inv D)) as [P [Q T]].
    cbn [app atoi]. cbn [app] in X. rewrite P, Q, T, X. lia.
  - change (txt "-" ++ ds ++ rest) with (45 :: ds ++ rest). cbn [atoi]. change (is_blank 45) with false. change (45 =? 45) with true. cbn iota. rewrite X. lia.
  - change (txt "+" ++ ds ++ rest) with (43 :: ds ++ rest). cbn [atoi]. change (is_blank 43) with false. change (43 =? 45) with false. change (43 =? 43) with true. cbn iota. rewrite X. lia.
Qed.
