(** A unit object parsed and asked repeatedly: C35. *)
From Verif Require Import Base Text_Model Text_Spec Text_Proofs Api_Model Api_Spec Api_Proofs3 Writer_Model Writer_Spec Writer_Proofs2 Writer_Proofs3 Writer_Proofs4 Writer_Proofs5 Writer_Proofs6 Writer_Proofs7 Writer_Proofs8 Writer_Proofs9 Writer_Proofs10 Source_Proofs4 Reuse_Model Reuse_Spec.
Local Open Scope N_scope.

Definition written (a : archive) (pre : nat -> bytes) (ts : list tree) (u : uobj) : Prop :=
  uo_read_body u = true /\ uo_srcml u = unit_xml (unit_tag a u) (unit_element a u) (forest_content pre ts) /\
  uo_content u = (Z.of_nat (length (unit_tag a u)) + 1,
                  Z.of_nat (length (unit_tag a u)) + 1 + match ts with [] => 0 | _ => 1 + Z.of_nat (length (content pre ts)) end)%Z /\
  uo_insert u = insert_of a u.
Definition fits (a : archive) (pre : nat -> bytes) (k : seen) (u : uobj) : Prop :=
  usable a u /\ (forall i, prefix_of a u i = pre i) /\ u_encoding (uo_settings u) = sn_encoding k /\ u_hash (uo_settings u) = sn_hash k /\
  uo_raw u = sn_inner k /\ match sn_trees k with None => uo_read_body u = false | Some ts => written a pre ts u end.
Lemma usable_start : forall a u lang lang' enc, usable a u -> clean_opt (a_url a) -> clean enc ->
  usable a (set_parse_start (set_derived u lang') lang (a_url a) (Some enc)).
Proof.
  intros a u lang lang' enc (D & P & C) CU CE. split; [exact D|]. split; [exact P|]. destruct C as (C1 & C2 & C3 & _ & C5 & C6 & C7 & C8 & C9 & C10 & _).
  repeat split; assumption.
Qed.
Lemma same_forest : forall pre pre' ts, (forall i, pre i = pre' i) -> forest_content pre ts = forest_content pre' ts /\ content pre ts = content pre' ts.
Proof.
  intros pre pre' ts H. assert (X : content pre ts = content pre' ts); [|split; [destruct ts; [reflexivity|cbn [forest_content]; f_equal; exact X]|exact X]].
  unfold content. assert (T : forall t, tree_xml pre t = tree_xml pre' t).
  { fix IH 1. intros [s|i n al|i n al po kids]; cbn [tree_xml]; rewrite ?H; [reflexivity|reflexivity|].
    assert (K : flat_map (tree_xml pre) kids = flat_map (tree_xml pre') kids).
    { induction kids as [|t kids IHk]; [reflexivity|]. cbn [flat_map]. rewrite IH, IHk. reflexivity. }
    destruct kids; [reflexivity|]. rewrite K. reflexivity. }
  induction ts as [|t ts IH]; [reflexivity|]. cbn [flat_map]. rewrite T, IH. reflexivity.
Qed.

Lemma asked_clean : forall a u, usable a u -> clean_opt (a_src_encoding a) -> clean_opt (asked_for a (u_encoding (uo_settings u))).
Proof. intros a u (_ & _ & C) CS. unfold asked_for. destruct (u_encoding (uo_settings u)) as [x|] eqn:E; [|exact CS]. destruct C as (_ & _ & _ & _ & _ & _ & _ & _ & _ & _ & C). rewrite E in C. exact C. Qed.
Lemma parse_fits : forall e t a pre k u lang s, delivers e t -> clean_opt (a_url a) -> clean_opt (a_src_encoding a) -> fits a pre k (wu u) ->
  clean_opt (sn_hash k) ->
  exists r v, unit_parse e a u lang s = Ok (r, v) /\ fits a pre (see e t a pre k (UParse lang s)) (wu v) /\ clean_opt (sn_hash (see e t a pre k (UParse lang s))) /\ uo_fragment (wu v) = uo_fragment (wu u) /\ match parse_of e a (sn_encoding k) (UParse lang s) with
    | None => sn_trees (see e t a pre k (UParse lang s)) = sn_trees k /\ sn_inner (see e t a pre k (UParse lang s)) = sn_inner k /\ uo_src (wu v) = uo_src (wu u) /\ uo_loc (wu v) = uo_loc (wu u) /\ r <> ST_OK
    | Some _ => r = ST_OK /\ exists x, x = (match uo_src (wu u) with Some x => x | None => extracted e (uo_srcml (wu v)) end) /\ uo_src (wu v) = Some x /\ uo_loc (wu v) = Z.of_nat (loc_written x)
    end.
Proof.
  intros e t a pre k u lang s DL CU CS F CH. pose proof F as (U & P & E & H & R & W). unfold unit_parse, see.
  set (v0 := WUnitObj (set_derived (wu u) lang) (wu_trans u)).
  assert (F0 : fits a pre k (wu v0)) by (split; [exact U|]; split; [exact P|]; split; [exact E|]; split; [exact H|]; split; [exact R|exact W]).
  change (uo_settings (wu v0)) with (uo_settings (wu u)). rewrite E, H. fold (asked_for a (sn_encoding k)).

  destruct (lang =? 0) eqn:L.
  - assert (Q : parse_of e a (sn_encoding k) (UParse lang s) = None) by (cbn; rewrite L; destruct s; reflexivity). rewrite Q.
    exists ST_UNSET_LANGUAGE, u. split; [reflexivity|]. split; [exact F|]. split; [exact CH|]. split; [reflexivity|]. repeat (split; [reflexivity|]). discriminate.
  - destruct (match asked_for a (sn_encoding k) with Some x => negb (supported e x) | None => false end) eqn:SP.
    { assert (Q : parse_of e a (sn_encoding k) (UParse lang s) = None).
      { cbn. rewrite L. destruct s; [|reflexivity]. destruct (asked_for a (sn_encoding k)) as [x|]; [|discriminate SP]. destruct (supported e x); [discriminate SP|reflexivity]. }
      rewrite Q. exists ST_INVALID_ARGUMENT, v0. split; [reflexivity|]. split; [exact F0|]. split; [exact CH|]. split; [reflexivity|]. repeat (split; [reflexivity|]). discriminate. }
    destruct s as [s|].
    + assert (Q : parse_of e a (sn_encoding k) (UParse lang (Some s)) = Some (lang, s)).
      { cbn. rewrite L. destruct (asked_for a (sn_encoding k)) as [x|]; [|reflexivity]. destruct (supported e x); [reflexivity|discriminate SP]. }
      rewrite Q. cbn [sn_hash sn_trees sn_inner sn_encoding]. set (enc := settled e _ s). destruct (DL lang enc s) as (G & GT & CE & CD). rewrite G.
      change B_HASH with 15. set (hash := match sn_hash k with Some h => Some h | None => _ end).
      assert (CHH : clean_opt hash) by (unfold hash; destruct (sn_hash k); [exact CH|destruct (opt _ _); [exact CD|exact Logic.I]]).
      destruct (parse_ok_all (extracted e) a v0 lang (Some enc) hash (t lang enc s)) as (v & PE & V1 & V2 & V3 & V4 & V5 & V6 & (l & V7 & V8 & _) & V9 & V10 & V11 & V12).
      { apply usable_start; [exact U|exact CU|apply CE]. rewrite <- E. apply asked_clean; assumption. }
      { exact CHH. }
      { exact GT. }
      rewrite PE. exists ST_OK, v. split; [reflexivity|]. destruct V5 as (S1 & S2 & S3 & S4 & S5 & S6).
      assert (PV : forall i, prefix_of a (wu v) i = pre i).
      { intros i. rewrite <- P. unfold prefix_of. rewrite !unit_out_ns. unfold unit_namespaces at 1. rewrite V7. apply prefix_names, merged_again, grows_names. exact V8. }
      assert (PS : forall i, prefix_at i (so_ns (unit_out a (set_parse_start (wu v0) lang (a_url a) (Some enc)))) = pre i) by (intros i; exact (P i)).
      destruct (same_forest _ _ (t lang enc s) PS) as (FC1 & FC2).
      split; [|split; [exact CHH|split; [exact V10|split; [reflexivity|eexists; split; [reflexivity|]; split; [exact V11|exact V12]]]]].
      split; [exact V6|]. split; [exact PV|]. cbn [sn_encoding sn_hash sn_inner sn_trees]. rewrite S2. split; [reflexivity|]. split; [reflexivity|]. split; [rewrite V9; exact R|].
      split; [exact V4|]. split; [rewrite V1, FC1; reflexivity|]. split; [|exact V3]. rewrite V2. unfold content in FC2. unfold content. rewrite FC2. reflexivity.
    + cbn [parse_of]. exists ST_IO_ERROR, v0. split; [reflexivity|]. split; [exact F0|]. split; [exact CH|]. split; [reflexivity|]. repeat (split; [reflexivity|]). discriminate.
Qed.

Lemma written_again : forall a pre ts u v, written a pre ts u -> uo_settings v = uo_settings u -> uo_revision v = uo_revision u -> uo_url v = uo_url u ->
  uo_attributes v = uo_attributes u -> uo_namespaces v = uo_namespaces u -> uo_read_body v = uo_read_body u -> uo_srcml v = uo_srcml u ->
  uo_content v = uo_content u -> uo_insert v = uo_insert u -> written a pre ts v.
Proof.
  intros a pre ts u v (A & B & C & D) E1 E2 E3 E4 E5 E6 E7 E8 E9. unfold written.
  assert (T : unit_tag a v = unit_tag a u) by (unfold unit_tag, unit_out, unit_namespaces, start_args; rewrite E1, E2, E3, E4, E5; reflexivity).
  assert (X : unit_element a v = unit_element a u) by (unfold unit_element, unit_out, unit_namespaces; rewrite E5; reflexivity).
  assert (Y : insert_of a v = insert_of a u) by (unfold insert_of, src_decl, unit_element, unit_out, unit_namespaces; rewrite E5; reflexivity).
  rewrite T, X, Y, E6, E7, E8, E9. auto.
Qed.
Lemma content_inner : forall a pre ts u, written a pre ts u -> inner u = Ok (content pre ts) /\
  ((snd (uo_content u) - fst (uo_content u) - 1 <=? 0)%Z = match content pre ts with [] => true | _ => false end).
Proof.
  intros a pre ts u (_ & B & C & _). split.
  - rewrite (inner_written u (unit_tag a u) (unit_element a u) (forest_content pre ts) B); [destruct ts; reflexivity|].
    rewrite C. destruct ts; reflexivity.
  - rewrite C. cbn [fst snd]. destruct ts as [|x ts]; [cbn [content flat_map]; apply Z.leb_le; lia|].
    destruct (content pre (x :: ts)) as [|c r]; [apply Z.leb_le; cbn [length]; lia|apply Z.leb_gt; cbn [length]; lia].
Qed.
Lemma step_fits : forall e t a pre k u c r v, delivers e t -> clean_opt (a_url a) -> clean_opt (a_src_encoding a) -> fits a pre k (wu u) -> clean_opt (sn_hash k) ->
  ustep e a u c = Ok (r, v) -> fits a pre (see e t a pre k c) (wu v) /\ clean_opt (sn_hash (see e t a pre k c)).
Proof.
  intros e t a pre k u c r v DL CU CS F CH S. destruct c as [lang s| | | | | |].
  1: { cbn [ustep] in S. destruct (parse_fits e t a pre k u lang s DL CU CS F CH) as (st & w & E & F2 & C2 & _). rewrite E in S. cbn [obind fst snd] in S.
       injection S as _ <-. auto. }
  all: cbn [ustep] in S; unfold see; cbn [parse_of].
  1,4,5,6: injection S as _ <-; auto.
  - destruct F as (U & P & E & H & R & W). destruct (sn_trees k) as [ts|] eqn:T.
    + pose proof W as (B & _). rewrite B in S. destruct (content_inner _ _ _ _ W) as (I1 & I2). unfold get_inner in S. rewrite I2 in S.
      destruct (content pre ts) as [|c0 cr] eqn:CT.
      * injection S as _ <-. assert (F0 : fits a pre k (wu u)) by (unfold fits; rewrite T; auto 6). destruct (sn_inner k) as [x|] eqn:SI; [auto|].
        cbn [sn_hash]. split; [|exact CH]. unfold fits. cbn [sn_encoding sn_hash sn_trees sn_inner wu]. auto 6.
      * rewrite R in S. destruct (sn_inner k) as [x|] eqn:SI.
        { injection S as _ <-. split; [|exact CH]. unfold fits. rewrite T, SI. auto 6. }
        rewrite I1 in S. cbn [obind fst snd] in S. injection S as _ <-. cbn [sn_hash]. split; [|exact CH]. unfold fits. cbn [sn_encoding sn_hash sn_trees sn_inner wu].
        split; [exact U|]. split; [exact P|]. split; [exact E|]. split; [exact H|]. split; [reflexivity|]. eapply written_again; [exact W|reflexivity..].
    + rewrite W in S. injection S as _ <-. split; [|exact CH]. unfold fits. rewrite T. auto 6.
  - assert (Q : match sn_trees k with Some _ => match sn_inner k with Some _ => k | None => k end | None => k end = k) by (destruct (sn_trees k); [destruct (sn_inner k)|]; reflexivity).
    split; [|exact CH]. destruct (uo_read_body (wu u)) eqn:B; [|injection S as _ <-; exact F].
    unfold get_outer in S. destruct (uo_fragment (wu u)) as [x|] eqn:X; [injection S as _ <-; exact F|]. destruct (outer (wu u)) as [x|] eqn:O; [|discriminate S].
    injection S as _ <-. destruct F as (U & P & E & H & R & W). split; [exact U|]. split; [exact P|]. split; [exact E|]. split; [exact H|]. split; [exact R|].
    destruct (sn_trees k) as [ts|]; [eapply written_again; [exact W|reflexivity..]|exact W].
Qed.
Lemma run_fits : forall e t a pre h k u r v, delivers e t -> clean_opt (a_url a) -> clean_opt (a_src_encoding a) -> fits a pre k (wu u) -> clean_opt (sn_hash k) ->
  urun e a u h = Ok (r, v) -> fits a pre (see_all e t a pre k h) (wu v) /\ clean_opt (sn_hash (see_all e t a pre k h)).
Proof.
  intros e t a pre. induction h as [|c h IH]; intros k u r v DL CU CS F CH S; cbn [urun] in S; [injection S as _ <-; auto|].
  destruct (ustep e a u c) as [(r1, v1)|] eqn:E; [|discriminate S]. cbn [obind fst snd] in S. destruct (urun e a v1 h) as [(r2, v2)|] eqn:E2; [|discriminate S].
  injection S as _ <-. destruct (step_fits _ _ _ _ _ _ _ _ _ DL CU CS F CH E) as (F1 & C1). exact (IH _ _ _ _ DL CU CS F1 C1 E2).
Qed.
Lemma start_fits : forall a u, usable a u -> unparsed u -> fits a (prefix_of a u) (start_seen u) u /\ clean_opt (sn_hash (start_seen u)).
Proof.
  intros a u U (B & R & _). split; [|destruct U as (_ & _ & C); apply C]. split; [exact U|]. split; [reflexivity|]. split; [reflexivity|]. split; [reflexivity|]. split; [exact R|exact B].
Qed.
(** after any calls *)
Lemma reused : forall e t a u h r v, delivers e t -> clean_opt (a_url a) -> clean_opt (a_src_encoding a) -> usable a (wu u) -> unparsed (wu u) ->
  urun e a u h = Ok (r, v) ->
  let pre := prefix_of a (wu u) in let k := see_all e t a pre (start_seen (wu u)) h in
  ustep e a v USrcml = Ok (AText (option_map (fun ts => unit_xml (unit_tag a (wu v)) (unit_element a (wu v)) (forest_content pre ts)) (sn_trees k)), v) /\
  (exists v', ustep e a v UInner = Ok (AText (option_map (fun ts => match content pre ts with [] => [] | x => match sn_inner k with Some y => y | None => x end end) (sn_trees k)), v')) /\
  ustep e a v UHash = Ok (AText (sn_hash k), v) /\ ustep e a v UEncoding = Ok (AText (sn_encoding k), v).
Proof.
  intros e t a u h r v DL CU CS U UP RN pre k. destruct (start_fits _ _ U UP) as (F & C).
  destruct (run_fits e t a pre h _ _ _ _ DL CU CS F C RN) as ((Uv & P & E & H & R & W) & _). fold k in E, H, R, W.
  split; [|split; [|split; [cbn [ustep]; rewrite H; reflexivity|cbn [ustep]; rewrite E; reflexivity]]].
  - cbn [ustep]. destruct (sn_trees k) as [ts|]; cbn [option_map]; [destruct W as (B & D & _); rewrite B, D; reflexivity|rewrite W; reflexivity].
  - cbn [ustep]. destruct (sn_trees k) as [ts|]; cbn [option_map]; [|rewrite W; eexists; reflexivity]. pose proof W as (B & _). rewrite B.
    destruct (content_inner _ _ _ _ W) as (I1 & I2). unfold get_inner. rewrite I2. destruct (content pre ts) as [|c0 cr] eqn:CT; [eexists; reflexivity|].
    rewrite R. destruct (sn_inner k) as [y|]; [eexists; reflexivity|]. rewrite I1. eexists. reflexivity.
Qed.
