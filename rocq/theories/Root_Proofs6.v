From Verif Require Import Base Text_Model Text_Spec Text_Proofs3 Api_Model Api_Spec Api_Proofs Api_Proofs3 Writer_Model Writer_Spec Writer_Proofs2 Writer_Proofs8 Archive_Model Archive_Spec Pretty_Spec Pretty_Proofs2 Root_Model Root_Spec Root_Proofs Root_Proofs2 Root_Proofs3 Root_Proofs4 Root_Proofs5.
Local Open Scope N_scope.

(** ** numbers *)
Lemma digits_dec : forall s v, Forall (fun c => 48 <= c <= 57) s -> digits_value (Z.of_N v) s = Z.of_N (fold_left (fun a c => 10 * a + (c - 48)) s v).
Proof.
  induction s as [|c s IH]; intros v F; [reflexivity|]. cbn [digits_value fold_left]. pose proof (Forall_inv F) as C.
  rewrite (proj2 (N.leb_le _ _) (proj1 C)), (proj2 (N.leb_le _ _) (proj2 C)). cbn [andb].
  replace (10 * Z.of_N v + Z.of_N (c - 48))%Z with (Z.of_N (10 * v + (c - 48))) by lia. apply IH, (Forall_inv_tail F).
Qed.
Lemma atoi_dec : forall n, n < 2 ^ 31 -> to_size (atoi (dec_of n)) = n.
Proof.
  intros n L. destruct (dec_of_ok n) as (NE & F & V & _); [eapply N.lt_trans; [exact L|reflexivity]|].
  assert (E : atoi (dec_of n) = Z.of_N n).
  { pose proof (digits_dec (dec_of n) 0 F) as Dg. fold (dec_value (dec_of n)) in Dg. rewrite V in Dg. rewrite <- Dg.
    destruct (dec_of n) as [|c s]; [contradiction|]. pose proof (Forall_inv F) as C. cbn in C. cbn [atoi].
    replace (is_blank c) with false; [|symmetry; unfold is_blank; apply orb_false_iff; split; [apply N.eqb_neq; lia|apply andb_false_iff; right; apply N.leb_gt; lia]].
    rewrite (proj2 (N.eqb_neq c 45)) by lia. rewrite (proj2 (N.eqb_neq c 43)) by lia. reflexivity. }
  rewrite E. unfold to_size. rewrite Z.mod_small; [apply N2Z.id|]. split; [apply N2Z.is_nonneg|]. change (2 ^ 64)%Z with (Z.of_N (2 ^ 64)). apply N2Z.inj_lt. eapply N.lt_trans; [exact L|reflexivity].
Qed.

(** ** the attributes, one after the other *)
Lemma fold_other : forall al t, (forall n v, In (n, v) (pairs_of al) -> ~ In n reserved) -> Nat.even (length al) = true ->
  fold_left root_attribute (pairs_of al) t = (fst t, snd t ++ al).
Proof.
  assert (G : forall k al t, (length al <= k)%nat -> (forall n v, In (n, v) (pairs_of al) -> ~ In n reserved) -> Nat.even (length al) = true ->
    fold_left root_attribute (pairs_of al) t = (fst t, snd t ++ al)).
  { induction k as [|k IH]; intros al (a, al0) L R E.
    - destruct al; [|cbn in L; lia]. cbn. rewrite app_nil_r. reflexivity.
    - destruct al as [|n [|v al]]; [cbn; rewrite app_nil_r; reflexivity|discriminate E|].
      cbn [pairs_of fold_left fst snd]. assert (Q : root_attribute (a, al0) (n, v) = (a, al0 ++ [n; v])).
      { pose proof (R n v (or_introl eq_refl)) as K. unfold root_attribute.
        repeat match goal with |- context [beqb n ?w] => let J := fresh in destruct (beqb n w) eqn:J; [exfalso; apply K; apply beqb_true in J; subst n; vm_compute; tauto|clear J] end. reflexivity. }
      rewrite Q, IH; cbn [fst snd].
      + rewrite <- app_assoc. reflexivity.
      + cbn in L. lia.
      + intros m w I. apply (R m w). right. exact I.
      + exact E. }
  intros al t. exact (G (length al) al t (le_n _)).
Qed.
Definition read_archive (a a0 : archive) : archive :=
  Archive (a_src_encoding a0) (a_encoding a0) (a_language a0) (or_else (a_url a) (a_url a0)) (or_else (a_version a) (a_version a0))
    (or_else (a_revision a) (a_revision a0))
    (read_options (length (stored_options (a_options a))) (stored_options (a_options a)) (a_options a0))
    (if N.testbit (a_options a) 2 then a_tabstop a else a_tabstop a0) (a_namespaces a0) (a_pi a0) (a_extensions a0) (a_macros a0) (a_revision_number a0).
Lemma fold_rest : forall a al a0 al0, expressible a al -> a_tabstop a < 2 ^ 31 ->
  fold_left root_attribute (root_rest a (txt "tabs") al) (a0, al0) = (read_archive a a0, al0 ++ al).
Proof.
  intros a al a0 al0 (_ & _ & _ & _ & _ & EV & AL) T. unfold root_rest. rewrite !fold_left_app.
  rewrite fold_other; [|intros n v I; apply (AL n v I)|exact EV].
  pose proof (atoi_dec _ T) as TD. unfold read_archive. set (d := dec_of (a_tabstop a)) in *. clearbody d.
  destruct a0 as [f1 f2 f3 f4 f5 f6 f7 f8 f9 f10 f11 f12 f13].
  destruct (a_revision a) as [r|], (a_url a) as [u|], (a_version a) as [v|]; cbn [given or_else fold_left];
  (destruct (N.testbit (a_options a) 2); cbn [fold_left];
    [|destruct (stored_options (a_options a)) as [|c s]; reflexivity]);
  (match goal with |- context [root_attribute ?t (txt "tabs", d)] => replace (root_attribute t (txt "tabs", d)) with (snd (step (fst t) (SetTabstop (a_tabstop a))), snd t) by (unfold root_attribute; rewrite TD; reflexivity) end);
  (destruct (stored_options (a_options a)) as [|c s]; reflexivity).
Qed.
Lemma options_read : forall o w i, N.testbit (read_options (length (stored_options o)) (stored_options o) w) i =
  N.testbit w i || (if in_dec N.eq_dec i [4; 5; 10] then N.testbit o i else false).
Proof.
  intros o w i. unfold stored_options, opt, B_CPP_TEXT_ELSE, B_CPP_MARKUP_IF0, B_LINE.
  assert (X : (if in_dec N.eq_dec i [4; 5; 10] then N.testbit o i else false) = (if i =? 4 then N.testbit o 4 else if i =? 5 then N.testbit o 5 else if i =? 10 then N.testbit o 10 else false)).
  { destruct (in_dec N.eq_dec i [4; 5; 10]) as [I|NI].
    - destruct I as [<-|[<-|[<-|[]]]]; reflexivity.
    - cbn in NI. repeat match goal with |- context [i =? ?k] => let J := fresh in destruct (i =? k) eqn:J; [apply N.eqb_eq in J; subst i; exfalso; apply NI; tauto|] end. reflexivity. }
  rewrite X. clear X.
  destruct (N.testbit o 4), (N.testbit o 5), (N.testbit o 10);
  match goal with |- context[read_options ?f ?s w] => let r := eval cbv -[N.lor] in (read_options f s w) in change (read_options f s w) with r end;
  rewrite ?N.lor_spec; change 16 with (2 ^ 4); change 32 with (2 ^ 5); change 1024 with (2 ^ 10); rewrite ?pow2_bit;
  rewrite ?(N.eqb_sym 4 i), ?(N.eqb_sym 5 i), ?(N.eqb_sym 10 i);
  (destruct (i =? 4) eqn:J4; [apply N.eqb_eq in J4; subst i|destruct (i =? 5) eqn:J5; [apply N.eqb_eq in J5; subst i|destruct (i =? 10) eqn:J10; [apply N.eqb_eq in J10; subst i|]]]);
  cbn [N.eqb Pos.eqb]; destruct (N.testbit w _); reflexivity.
Qed.
