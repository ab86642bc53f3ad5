(** An output that could not be created (C24). *)
From Verif Require Import Base Text_Model Text_Spec Api_Model Writer_Model Writer_Spec Archive_Model Archive_Spec Create_Model Create_Spec Todir_Model Todir_Spec Todir_Proofs2.
Local Open Scope N_scope.

Definition adrift (f : list bytes) (m : am) : Prop := am_buf m = NoBuffer /\ am_files m = f /\ (am_trans m = None \/ exists t, am_trans m = Some (t, None)) /\ am_type m = IO_WRITE.
Lemma adrift_run : forall f cs m, adrift f m -> Forall ok_call cs -> exists rs m', arun m cs = Ok (rs, m') /\ adrift f m'.
Proof.
  intros f. induction cs as [|c cs IH]; intros m N F; [exists [], m; split; [reflexivity|exact N]|]. inversion F as [|x l F1 F2]; subst.
  assert (S : exists r m1, astep m c = Ok (r, m1) /\ adrift f m1).
  { destruct N as (N1 & N2 & N3 & N4). destruct c as [| | |[[ua u]|]|[s|] n| | | |c]; try contradiction; cbn [astep].
    - destruct F1 as (c & F1). unfold write_unit. destruct (uo_read_body u); cbn [negb]; [|eexists _, m; split; [reflexivity|repeat split; assumption]]. rewrite N4.
      assert (T : exists t, match am_trans m with Some t => Ok t | None => create_trans m end = Ok (t, None)).
      { destruct N3 as [->|(t & ->)]; [|exists t; reflexivity]. unfold create_trans. rewrite N1. eexists. reflexivity. }
      destruct T as (t & ->). cbn [obind fst snd]. destruct (add_ok ua t u c F1) as (r & ->). cbn [obind]. eexists _, _. split; [reflexivity|]. repeat split; try assumption. right. eexists. reflexivity.
    - cbn [ok_call] in F1. subst n. replace (Z.of_nat (length s) <? 0)%Z with false by (symmetry; apply Z.ltb_ge; lia). rewrite Z.ltb_irrefl. unfold write_raw_string. rewrite N1. cbn [obind].
      eexists _, _. split; [reflexivity|]. repeat split; assumption.
    - eexists _, _. split; [reflexivity|]. repeat split; assumption. }
  destruct S as (r & m1 & S & N'). destruct (IH m1 N' F2) as (rs & m' & E & N2). cbn [arun]. rewrite S. cbn [obind fst snd]. rewrite E. cbn [obind fst snd]. eexists _, m'. split; [reflexivity|exact N2].
Qed.
Lemma adrift_close : forall f m, adrift f m -> exists m', close m = Ok m' /\ am_files m' = f.
Proof.
  intros f m (N1 & N2 & N3 & N4).
  assert (Y : forall k t, am_buf k = NoBuffer -> am_files k = f -> am_trans k = Some (t, None) -> am_buf (close_trans k) = NoBuffer /\ am_files (close_trans k) = f).
  { intros k t K1 K2 K3. unfold close_trans. rewrite K3. destruct (so_w (t_out t)); split; assumption. }
  unfold close. rewrite N4.
  assert (X : exists k, (match am_raw m with false => match am_trans m with None => obind (create_trans m) (fun t => Ok (set_trans m (am_buf m) (Some t))) | Some _ => Ok m end | true => Ok m end) = Ok k /\
     am_buf (close_trans k) = NoBuffer /\ am_files (close_trans k) = f).
  { destruct (am_raw m).
    - exists m. split; [reflexivity|]. destruct N3 as [N3|(t & N3)]; [|exact (Y m t N1 N2 N3)]. unfold close_trans. rewrite N3. split; assumption.
    - destruct N3 as [N3|(t & N3)]; rewrite N3; [|exists m; split; [reflexivity|exact (Y m t N1 N2 N3)]].
      assert (CT : exists t, create_trans m = Ok (t, None)) by (unfold create_trans; rewrite N1; eexists; reflexivity). destruct CT as (t & CT). rewrite CT. cbn [obind].
      eexists. split; [reflexivity|]. apply (Y _ t); [exact N1|exact N2|reflexivity]. }
  destruct X as (k & -> & K1 & K2). cbn [obind]. rewrite K1. destruct (am_raw (close_trans k)); cbn [obind]; destruct (am_memory (close_trans k)); eexists; split; try reflexivity; exact K2.
Qed.
Lemma arun_snoc : forall cs m rs m1 r m2, arun m cs = Ok (rs, m1) -> astep m1 Close = Ok (r, m2) -> arun m (cs ++ [Close]) = Ok (rs ++ [r], m2).
Proof.
  induction cs as [|c cs IH]; intros m rs m1 r m2 H C; [injection H as <- <-; cbn [app arun]; rewrite C; reflexivity|]. cbn [app arun] in *. destruct (astep m c) as [[x y]|]; [|discriminate H]. cbn [obind fst snd] in *.
  destruct (arun y cs) as [[u v]|] eqn:E; [|discriminate H]. injection H as <- <-. rewrite (IH y u v r m2 E C). reflexivity.
Qed.
Lemma not_created : forall m cs, am_trans m = None -> Forall ok_call cs -> exists rs m', arun m (OpenOutput true false :: cs ++ [Close]) = Ok (rs, m') /\ am_files m' = am_files m.
Proof.
  intros m cs T F. cbn [arun astep negb obind fst snd]. set (m0 := AM _ _ _ _ _ _ _ _ _ _ _ _).
  assert (A : adrift (am_files m) m0) by (repeat split; left; exact T). destruct (adrift_run _ cs m0 A F) as (rs & m1 & E & A1). destruct (adrift_close _ m1 A1) as (m2 & C & D).
  rewrite (arun_snoc cs m0 rs m1 RVoid m2 E); [|cbn [astep]; rewrite C; reflexivity]. cbn [obind fst snd]. eexists _, m2. split; [reflexivity|exact D].
Qed.
