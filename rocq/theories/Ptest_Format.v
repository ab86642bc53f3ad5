(** The parser test: how numbers and rows are written (C64). *)
From Coq Require Import DecimalString DecimalFacts DecimalNat.
From Verif Require Import Base Text_Model Text_Spec Ptest_Model Ptest_Spec.
Local Open Scope N_scope.

Lemma value_of : forall d acc, fold_left (fun a c => 10 * a + (c - 48)) (txt (NilEmpty.string_of_uint d)) (N.of_nat acc) = N.of_nat (Nat.of_uint_acc d acc).
Proof.
  induction d; intros acc; [reflexivity|..]; cbn [NilEmpty.string_of_uint Nat.of_uint_acc]; unfold txt; cbn [list_ascii_of_string map fold_left]; fold (txt (NilEmpty.string_of_uint d));
    rewrite <- IHd; f_equal; rewrite Nat.tail_mul_spec; match goal with |- context [nat_of_ascii ?c] => let v := eval vm_compute in (nat_of_ascii c) in change (nat_of_ascii c) with v end; lia.
Qed.
Lemma digits_only : forall d, Forall (fun c => 48 <= c <= 57) (txt (NilEmpty.string_of_uint d)).
Proof.
  induction d; [constructor|..]; cbn [NilEmpty.string_of_uint]; unfold txt; cbn [list_ascii_of_string map]; fold (txt (NilEmpty.string_of_uint d)); constructor; try exact IHd;
    match goal with |- context [nat_of_ascii ?c] => let v := eval vm_compute in (nat_of_ascii c) in change (nat_of_ascii c) with v end; lia.
Qed.
Lemma digits_decimal : forall n, decimal (digits n) (N.of_nat n).
Proof.
  intros n. unfold digits, NilZero.string_of_uint. assert (V : Nat.of_uint (Nat.to_uint n) = n) by apply Unsigned.of_to.
  assert (U : Nat.to_uint n = Decimal.unorm (Nat.to_uint n)) by (rewrite <- Unsigned.to_of, V; reflexivity).
  destruct (Nat.to_uint n) as [| d | d | d | d | d | d | d | d | d | d] eqn:E; [cbn [Decimal.unorm Decimal.nzhead] in U; discriminate U|..].
  all: split; [cbn [NilEmpty.string_of_uint]; unfold txt; cbn [list_ascii_of_string map]; discriminate|split; [apply digits_only|split]].
  all: try (unfold dec_value; change 0 with (N.of_nat 0); rewrite value_of; f_equal; exact V).
  all: cbn [NilEmpty.string_of_uint]; unfold txt; cbn [list_ascii_of_string map hd]; intros H; try discriminate H.
  unfold Decimal.unorm in U. destruct (Decimal.nzhead (Decimal.D0 d)) eqn:Z; try discriminate U.
  - injection U as ->. reflexivity.
  - exfalso. exact (nzhead_nonzero _ _ Z).
Qed.
Lemma left_padded : forall w s, padded_after w s (left_in w s).
Proof. intros w s. exists (w - length s)%nat. split; [reflexivity|]. unfold left_in. rewrite app_length, repeat_length. lia. Qed.
Lemma right_padded : forall w s, padded_before w s (right_in w s).
Proof. intros w s. exists (w - length s)%nat. split; [reflexivity|]. unfold right_in. rewrite app_length, repeat_length. lia. Qed.
Lemma row_format : forall name percent m n, row_text name percent m n (row name percent m n).
Proof.
  intros name percent m n. unfold row, percentage. eexists (left_in 12 name), (right_in 6 (digits m)), (right_in 6 (digits n)), _, (digits m), (digits n).
  split; [reflexivity|]. split; [apply left_padded|]. split; [apply digits_decimal|]. split; [apply right_padded|]. split; [apply digits_decimal|]. split; [apply right_padded|].
  split; intros H.
  - replace (Nat.eqb m 0 || Nat.leb n (m * 100)) with true; [apply right_padded|]. symmetry. apply orb_true_iff. rewrite Nat.eqb_eq, Nat.leb_le. destruct H as [H|H]; [left; exact H|right; lia].
  - replace (Nat.eqb m 0 || Nat.leb n (m * 100)) with false; [reflexivity|]. symmetry. apply orb_false_iff. rewrite Nat.eqb_neq, Nat.leb_gt. split; [intros K; apply H; left; exact K|]. apply Nat.nle_gt. intros K. apply H. right. lia.
Qed.
Lemma mark_format : forall color ok n, number_text color ok n (mark color ok n).
Proof. intros color ok n. exists (digits n). split; [apply digits_decimal|]. unfold mark, plain, esc. destruct color, ok; cbn [app]; rewrite ?app_nil_r; reflexivity. Qed.
Lemma header_format : forall l u, file_line l u (header l u).
Proof. intros l u. exists (left_in 12 l), (left_in 30 u). split; [reflexivity|]. split; apply left_padded. Qed.
Lemma wrap_format : next_line wrap.
Proof. exists (left_in 30 (txt "...")). split; [reflexivity|]. apply left_padded. Qed.
Lemma head_format : forall l u f, summary_line l u f (summary_head l u f).
Proof. intros l u f. exists (left_in 12 l), (left_in 30 u), (left_in 30 f). split; [reflexivity|]. repeat split; apply left_padded. Qed.
Lemma error_format : forall l u f n a b e, error_text false l u f n a b = Ok e -> error_lines l u f n a b e.
Proof.
  intros l u f n a b e H. exists (digits n). split; [apply digits_decimal|]. unfold error_text in H. destruct a as [|x a]; [discriminate H|]. injection H as <-. cbn [dark plain]. unfold dark, plain. cbn [app]. rewrite <- ?app_assoc. reflexivity.
Qed.
