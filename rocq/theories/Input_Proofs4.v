(** C40, C42: digits; the directory of an output file. *)
From Verif Require Import Base Text_Model Text_Spec Writer_Model Writer_Spec Writer_Proofs2 Writer_Proofs10 Input_Model Input_Spec Input_Proofs Input_Proofs2 Input_Proofs3.

Lemma hex_digits_right c : (is_hex c = true <-> exists v, In (c, v) hex_values) /\ (forall v, In (c, v) hex_values -> hex_digit c = v) /\
  (is_oct c = true <-> In c (txt "01234567")).
Proof.
  assert (T : forall v, In (c, v) hex_values -> is_hex c = true /\ hex_digit c = v).
  { intros v H. cbn in H. repeat (destruct H as [H|H]; [injection H as <- <-; split; reflexivity|]). destruct H. }
  split; [|split].
  - split; [|intros [v H]; exact (proj1 (T v H))]. unfold is_hex. intros H.
    assert (I : In c (map fst hex_values)).
    { apply orb_true_iff in H as [H|H]; [apply orb_true_iff in H as [H|H]|]; apply andb_true_iff in H as [A B]; apply N.leb_le in A, B; cbn; lia. }
    apply in_map_iff in I as [[d v] [E I]]. cbn in E. subst d. exists v. exact I.
  - intros v H. exact (proj2 (T v H)).
  - unfold is_oct. split.
    + intros H. apply andb_true_iff in H as [A B]. apply N.leb_le in A, B. cbn. lia.
    + intros H. cbn in H. repeat (destruct H as [<-|H]; [reflexivity|]). destruct H.
Qed.
Lemma output_always dir f : (dir <> txt "." -> dir <> txt "./" -> output_file dir f = dir ++ [47%N] ++ f) /\
  exists base, output_file dir f = output_path dir f ++ base /\ (base = f /\ no_byte 47 f \/ exists n, base = 47%N :: n /\ no_byte 47 n).
Proof.
  split; [intros A B; exact (proj1 (output_ok dir f A B))|].
  unfold output_file, output_path. cbv zeta. set (p := if _ : bool then _ else _). destruct (rfind 47 f) as [k|] eqn:R.
  - destruct (rfind_some _ _ _ R) as [Sp Nb]. exists (47%N :: skipn (S k) f). split; [rewrite <- !app_assoc; rewrite Sp at 1; reflexivity|]. right. eexists. split; [reflexivity|exact Nb].
  - exists f. rewrite <- !app_assoc. split; [reflexivity|]. left. split; [reflexivity|exact (rfind_none _ _ R)].
Qed.
