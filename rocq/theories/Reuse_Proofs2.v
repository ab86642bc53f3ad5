(** One parse and any questions; what later parses do not change. *)
From Verif Require Import Base Text_Model Text_Spec Text_Proofs Api_Model Api_Spec Writer_Model Writer_Spec Writer_Proofs9 Writer_Proofs10 Reuse_Model Reuse_Spec Reuse_Proofs.
Local Open Scope N_scope.

Definition told (r : outcome (answer * wunit)) : outcome answer := match r with Ok (x, _) => Ok x | UB => UB end.
Lemma run_app : forall e a h1 h2 u r v, urun e a u (h1 ++ h2) = Ok (r, v) ->
  exists r1 w r2, urun e a u h1 = Ok (r1, w) /\ urun e a w h2 = Ok (r2, v) /\ r = r1 ++ r2.
Proof.
  intros e a. induction h1 as [|c h1 IH]; intros h2 u r v H; cbn [app urun] in *; [exists [], u, r; auto|].
  destruct (ustep e a u c) as [(x, w)|]; [|discriminate H]. cbn [obind fst snd] in *. destruct (urun e a w (h1 ++ h2)) as [(y, z)|] eqn:E; [|discriminate H].
  injection H as <- <-. destruct (IH _ _ _ _ E) as (r1 & w1 & r2 & E1 & E2 & ->). rewrite E1. cbn [obind]. exists (x :: r1), w1, r2. auto.
Qed.
Lemma failed : forall e t a u h r v lang s st w, delivers e t -> clean_opt (a_url a) -> clean_opt (a_src_encoding a) -> usable a (wu u) -> unparsed (wu u) ->
  urun e a u h = Ok (r, v) -> ustep e a v (UParse lang s) = Ok (AStatus st, w) -> st <> ST_OK ->
  forall q, asks q -> told (ustep e a w q) = told (ustep e a v q).
Proof.
  intros e t a u h r v lang s st w DL CU CS U UP RN S NS q Q. destruct (start_fits _ _ U UP) as (F & C).
  destruct (run_fits e t a _ h _ _ _ _ DL CU CS F C RN) as (Fv & Cv).
  destruct (parse_fits e t a _ _ v lang s DL CU CS Fv Cv) as (st2 & w2 & E & _ & _ & _ & K). cbn [ustep] in S. rewrite E in S. cbn [obind fst snd] in S. injection S as -> ->.
  assert (W : wu w = wu v \/ wu w = set_derived (wu v) lang).
  { unfold unit_parse in E. destruct (lang =? 0); [injection E as _ <-; left; reflexivity|].
    destruct (match match u_encoding _ with Some _ => _ | None => _ end with Some _ => _ | None => _ end); [injection E as _ <-; right; reflexivity|].
    destruct s as [s|]; [|injection E as _ <-; right; reflexivity]. exfalso.
    destruct (parse_of e a _ _) as [p|] eqn:PO; [destruct K as (K & _); exact (NS K)|]. clear K.
    set (k := see_all e t a (prefix_of a (wu u)) (start_seen (wu u)) h) in *.
    destruct Fv as (Uv & Pv & Ev & Hv & _).
    destruct (Writer_Proofs8.parse_ok_all (extracted e) a (WUnitObj (set_derived (wu v) lang) (wu_trans v)) lang
      (Some (settled e match u_encoding (uo_settings (wu v)) with Some x => Some x | None => a_src_encoding a end s))
      (match u_hash (uo_settings (wu v)) with Some h => Some h | None => if opt (a_options a) B_HASH then Some (digest e s) else None end)
      (t lang (settled e match u_encoding (uo_settings (wu v)) with Some x => Some x | None => a_src_encoding a end s) s)) as (z & PE & _).
    - apply usable_start; [exact Uv|exact CU|apply (DL lang [] s), asked_clean; assumption].
    - rewrite Hv. destruct (sn_hash k); [exact Cv|]. destruct (opt _ _); [apply (DL lang [] s)|exact Logic.I].
    - apply DL.
    - cbn [wu uo_settings] in E. rewrite (proj1 (DL lang _ s)) in E. cbn [wu set_derived uo_settings] in E. rewrite PE in E. injection E as <- _. exact (NS eq_refl). }
  destruct W as [W|W]; destruct q; try destruct Q; cbn [ustep told]; rewrite W; try reflexivity.
  - destruct (uo_read_body (wu v)); [|reflexivity]. destruct (get_inner (wu v)) as [(x, y)|]; reflexivity.
  - destruct (uo_read_body (wu v)); [|reflexivity]. destruct (get_outer (wu v)) as [(x, y)|]; reflexivity.
  - change (uo_read_body (set_derived (wu v) lang)) with (uo_read_body (wu v)). destruct (uo_read_body (wu v)); [|reflexivity].
    unfold get_inner. cbn [set_derived uo_content uo_raw]. destruct (_ <=? 0)%Z; [reflexivity|]. destruct (uo_raw (wu v)); [reflexivity|].
    change (inner (set_derived (wu v) lang)) with (inner (wu v)). destruct (inner (wu v)); reflexivity.
  - change (uo_read_body (set_derived (wu v) lang)) with (uo_read_body (wu v)). destruct (uo_read_body (wu v)); [|reflexivity].
    unfold get_outer. cbn [set_derived uo_fragment]. destruct (uo_fragment (wu v)); [reflexivity|].
    change (outer (set_derived (wu v) lang)) with (outer (wu v)). destruct (outer (wu v)); reflexivity.
Qed.
(** the line count and the outer form are never made again *)
Lemma loc_run : forall e t a pre h k u r v x, delivers e t -> clean_opt (a_url a) -> clean_opt (a_src_encoding a) -> fits a pre k (wu u) -> clean_opt (sn_hash k) ->
  uo_src (wu u) = Some x -> uo_loc (wu u) = Z.of_nat (loc_written x) -> urun e a u h = Ok (r, v) ->
  uo_src (wu v) = Some x /\ uo_loc (wu v) = Z.of_nat (loc_written x).
Proof.
  intros e t a pre. induction h as [|c h IH]; intros k u r v x DL CU CS F C SX LX S; cbn [urun] in S; [injection S as _ <-; auto|].
  destruct (ustep e a u c) as [(r1, v1)|] eqn:E; [|discriminate S]. cbn [obind fst snd] in S. destruct (urun e a v1 h) as [(r2, v2)|] eqn:E2; [|discriminate S].
  injection S as _ <-. destruct (step_fits _ _ _ _ _ _ _ _ _ DL CU CS F C E) as (F1 & C1). refine (IH _ _ _ _ _ DL CU CS F1 C1 _ _ E2).
  - destruct c as [lang s| | | | | |]; cbn [ustep] in E.
    1: { destruct (parse_fits e t a pre k u lang s DL CU CS F C) as (st & w & PE & _ & _ & _ & K). rewrite PE in E. injection E as _ <-.
         destruct (parse_of e a _ _); [destruct K as (_ & y & Y & K & _); rewrite K, Y, SX; reflexivity|]. destruct K as (_ & _ & K & _). rewrite K. exact SX. }
    1,4,5,6: injection E as _ <-; exact SX.
    + destruct (uo_read_body (wu u)); [|injection E as _ <-; exact SX]. unfold get_inner in E. destruct (_ <=? 0)%Z; [injection E as _ <-; exact SX|].
      destruct (uo_raw (wu u)); [injection E as _ <-; exact SX|]. destruct (inner (wu u)); [|discriminate E]. injection E as _ <-. exact SX.
    + destruct (uo_read_body (wu u)); [|injection E as _ <-; exact SX]. unfold get_outer in E.
      destruct (uo_fragment (wu u)); [injection E as _ <-; exact SX|]. destruct (outer (wu u)); [|discriminate E]. injection E as _ <-. exact SX.
  - destruct c as [lang s| | | | | |]; cbn [ustep] in E.
    1: { destruct (parse_fits e t a pre k u lang s DL CU CS F C) as (st & w & PE & _ & _ & _ & K). rewrite PE in E. injection E as _ <-.
         destruct (parse_of e a _ _); [destruct K as (_ & y & Y & _ & K); rewrite K, Y, SX; reflexivity|]. destruct K as (_ & _ & _ & K & _). rewrite K. exact LX. }
    1,4,5,6: injection E as _ <-; exact LX.
    + destruct (uo_read_body (wu u)); [|injection E as _ <-; exact LX]. unfold get_inner in E. destruct (_ <=? 0)%Z; [injection E as _ <-; exact LX|].
      destruct (uo_raw (wu u)); [injection E as _ <-; exact LX|]. destruct (inner (wu u)); [|discriminate E]. injection E as _ <-. exact LX.
    + destruct (uo_read_body (wu u)); [|injection E as _ <-; exact LX]. unfold get_outer in E.
      destruct (uo_fragment (wu u)); [injection E as _ <-; exact LX|]. destruct (outer (wu u)); [|discriminate E]. injection E as _ <-. exact LX.
Qed.
Lemma outer_run : forall e t a pre h k u r v x, delivers e t -> clean_opt (a_url a) -> clean_opt (a_src_encoding a) -> fits a pre k (wu u) -> clean_opt (sn_hash k) ->
  uo_fragment (wu u) = Some x -> uo_read_body (wu u) = true -> urun e a u h = Ok (r, v) -> uo_fragment (wu v) = Some x /\ uo_read_body (wu v) = true.
Proof.
  intros e t a pre. induction h as [|c h IH]; intros k u r v x DL CU CS F C SX LX S; cbn [urun] in S; [injection S as _ <-; auto|].
  destruct (ustep e a u c) as [(r1, v1)|] eqn:E; [|discriminate S]. cbn [obind fst snd] in S. destruct (urun e a v1 h) as [(r2, v2)|] eqn:E2; [|discriminate S].
  injection S as _ <-. destruct (step_fits _ _ _ _ _ _ _ _ _ DL CU CS F C E) as (F1 & C1).
  assert (BODY : uo_read_body (wu v1) = true).
  { destruct F as (_ & _ & _ & _ & _ & W). destruct F1 as (_ & _ & _ & _ & _ & W1). unfold see in W1.
    destruct (parse_of e a (sn_encoding k) c) as [(l, s)|]; [apply W1|]. destruct (sn_trees k) as [ts|] eqn:T; [|rewrite LX in W; discriminate W].
    destruct c, (sn_inner k); cbn [sn_trees] in W1; rewrite ?T in W1; apply W1. }
  refine (IH _ _ _ _ _ DL CU CS F1 C1 _ BODY E2).
  destruct c as [lang s| | | | | |]; cbn [ustep] in E.
  1: { destruct (parse_fits e t a pre k u lang s DL CU CS F C) as (st & w & PE & _ & _ & K & _). rewrite PE in E. injection E as _ <-. rewrite K. exact SX. }
  1,4,5,6: injection E as _ <-; exact SX.
  - destruct (uo_read_body (wu u)); [|injection E as _ <-; exact SX]. unfold get_inner in E. destruct (_ <=? 0)%Z; [injection E as _ <-; exact SX|].
    destruct (uo_raw (wu u)); [injection E as _ <-; exact SX|]. destruct (inner (wu u)); [|discriminate E]. injection E as _ <-. exact SX.
  - destruct (uo_read_body (wu u)); [|injection E as _ <-; exact SX]. unfold get_outer in E. rewrite SX in E. injection E as _ <-. exact SX.
Qed.
Lemma outer_stuck : forall e t a u h r v x v' h2 r2 w, delivers e t -> clean_opt (a_url a) -> clean_opt (a_src_encoding a) -> usable a (wu u) -> unparsed (wu u) ->
  urun e a u h = Ok (r, v) -> ustep e a v UOuter = Ok (AText (Some x), v') -> urun e a v' h2 = Ok (r2, w) -> ustep e a w UOuter = Ok (AText (Some x), w).
Proof.
  intros e t a u h r v x v' h2 r2 w DL CU CS U UP RN S RN2. destruct (start_fits _ _ U UP) as (F & C).
  destruct (run_fits e t a _ h _ _ _ _ DL CU CS F C RN) as (Fv & Cv). destruct (step_fits _ _ _ _ _ _ _ _ _ DL CU CS Fv Cv S) as (F1 & C1).
  assert (Z : uo_fragment (wu v') = Some x /\ uo_read_body (wu v') = true).
  { cbn [ustep] in S. destruct (uo_read_body (wu v)) eqn:B; [|discriminate S]. unfold get_outer in S. destruct (uo_fragment (wu v)) as [y|] eqn:FR.
    - injection S as <- <-. auto.
    - destruct (outer (wu v)) as [y|]; [|discriminate S]. injection S as <- <-. cbn. auto. }
  destruct (outer_run _ _ _ _ _ _ _ _ _ _ DL CU CS F1 C1 (proj1 Z) (proj2 Z) RN2) as (A & B). cbn [ustep]. rewrite B. unfold get_outer. rewrite A. destruct w. reflexivity.
Qed.
Lemma accepted_parse : forall e t a pre k u lang s v, delivers e t -> clean_opt (a_url a) -> clean_opt (a_src_encoding a) -> fits a pre k (wu u) -> clean_opt (sn_hash k) ->
  ustep e a u (UParse lang s) = Ok (AStatus ST_OK, v) ->
  exists x, x = (match uo_src (wu u) with Some x => x | None => extracted e (uo_srcml (wu v)) end) /\ uo_src (wu v) = Some x /\ uo_loc (wu v) = Z.of_nat (loc_written x) /\
    parse_of e a (sn_encoding k) (UParse lang s) <> None.
Proof.
  intros e t a pre k u lang s v DL CU CS F C S. cbn [ustep] in S. destruct (parse_fits e t a pre k u lang s DL CU CS F C) as (st & w & E & _ & _ & _ & K).
  rewrite E in S. injection S as -> ->. destruct (parse_of e a _ _); [|destruct K as (_ & _ & _ & _ & K); destruct (K eq_refl)].
  destruct K as (_ & x & X & A & B). exists x. repeat split; try assumption. discriminate.
Qed.
Lemma loc_stuck : forall e t a u h r v lang s v', delivers e t -> clean_opt (a_url a) -> clean_opt (a_src_encoding a) -> usable a (wu u) -> unparsed (wu u) ->
  urun e a u h = Ok (r, v) -> ustep e a v (UParse lang s) = Ok (AStatus ST_OK, v') ->
  exists n, forall h2 r2 w, urun e a v' h2 = Ok (r2, w) -> ustep e a w ULoc = Ok (ANumber n, w).
Proof.
  intros e t a u h r v lang s v' DL CU CS U UP RN S. destruct (start_fits _ _ U UP) as (F & C).
  destruct (run_fits e t a _ h _ _ _ _ DL CU CS F C RN) as (Fv & Cv). destruct (step_fits _ _ _ _ _ _ _ _ _ DL CU CS Fv Cv S) as (F1 & C1).
  destruct (accepted_parse _ _ _ _ _ _ _ _ _ DL CU CS Fv Cv S) as (x & _ & A & B & _). exists (Z.of_nat (loc_written x)). intros h2 r2 w RN2.
  destruct (loc_run _ _ _ _ _ _ _ _ _ _ DL CU CS F1 C1 A B RN2) as (_ & L). cbn [ustep]. rewrite L. reflexivity.
Qed.

(** asking changes only what is remembered of the inner and outer forms *)
Definition asked_from (u v : uobj) : Prop :=
  v = UObj (uo_archive u) (uo_settings u) (uo_revision u) (uo_url u) (uo_attributes u) (uo_derived u) (uo_namespaces u)
       (uo_output u) (uo_translator u) (uo_read_header u) (uo_read_body u) (uo_srcml u) (uo_src u) (uo_raw v) (uo_fragment v)
       (uo_content u) (uo_insert u) (uo_loc u) (uo_error u) /\
  (uo_raw v = uo_raw u \/ uo_raw u = None /\ exists x, uo_raw v = Some x /\ inner u = Ok x) /\
  (uo_fragment v = uo_fragment u \/ uo_fragment u = None /\ exists x, uo_fragment v = Some x /\ outer u = Ok x).
Lemma asked_inner : forall u v, asked_from u v -> inner v = inner u /\ outer v = outer u /\ uo_content v = uo_content u.
Proof. intros u v (-> & _). repeat split. Qed.
Lemma asked_run : forall e a h u r v, Forall asks h -> urun e a u h = Ok (r, v) -> asked_from (wu u) (wu v).
Proof.
  intros e a h u. assert (Z : asked_from (wu u) (wu u)) by (split; [destruct (wu u); reflexivity|auto]). revert Z. generalize (wu u) at 1 3 as u0. revert u.
  induction h as [|c h IH]; intros u u0 Z r v Q S; cbn [urun] in S; [injection S as _ <-; exact Z|].
  destruct (ustep e a u c) as [(r1, v1)|] eqn:E; [|discriminate S]. cbn [obind fst snd] in S. destruct (urun e a v1 h) as [(r2, v2)|] eqn:E2; [|discriminate S].
  injection S as _ <-. refine (IH _ _ _ _ _ (Forall_inv_tail Q) E2). destruct (asked_inner _ _ Z) as (ZI & ZO & _). destruct Z as (Z1 & Z2 & Z3).
  assert (ZZ : asked_from u0 (wu u)) by (split; [exact Z1|split; assumption]).
  destruct c as [lang s| | | | | |]; [destruct (Forall_inv Q)|..]; cbn [ustep] in E.
  1,4,5,6: injection E as _ <-; exact ZZ.
  - destruct (uo_read_body (wu u)); [|injection E as _ <-; exact ZZ]. unfold get_inner in E. destruct (_ <=? 0)%Z; [injection E as _ <-; exact ZZ|].
    destruct (uo_raw (wu u)) as [y|] eqn:R; [injection E as _ <-; exact ZZ|]. destruct (inner (wu u)) as [x|] eqn:I; [|discriminate E]. injection E as _ <-.
    split; [rewrite Z1; reflexivity|]. split; [|exact Z3]. right. cbn [wu snd set_raw uo_raw].
    destruct Z2 as [Z2|(_ & y & Z2 & _)]; [|discriminate Z2]. split; [auto|]. exists x. auto.
  - destruct (uo_read_body (wu u)); [|injection E as _ <-; exact ZZ]. unfold get_outer in E.
    destruct (uo_fragment (wu u)) as [y|] eqn:R; [injection E as _ <-; exact ZZ|]. destruct (outer (wu u)) as [x|] eqn:I; [|discriminate E]. injection E as _ <-.
    split; [rewrite Z1; reflexivity|]. split; [exact Z2|]. right. cbn [wu snd set_fragment uo_fragment].
    destruct Z3 as [Z3|(_ & y & Z3 & _)]; [|discriminate Z3]. split; [auto|]. exists x. auto.
Qed.
Lemma unparsed_run : forall e a h u r v, Forall asks h -> unparsed (wu u) -> urun e a u h = Ok (r, v) -> wu v = wu u.
Proof.
  intros e a. induction h as [|c h IH]; intros u r v Q U S; cbn [urun] in S; [injection S as _ <-; reflexivity|].
  destruct (ustep e a u c) as [(r1, v1)|] eqn:E; [|discriminate S]. cbn [obind fst snd] in S. destruct (urun e a v1 h) as [(r2, v2)|] eqn:E2; [|discriminate S].
  injection S as _ <-. assert (W : v1 = u).
  { destruct U as (B & _). destruct c as [lang s| | | | | |]; [destruct (Forall_inv Q)|..]; cbn [ustep] in E; rewrite ?B in E; injection E as _ <-; reflexivity. }
  subst v1. exact (IH _ _ _ (Forall_inv_tail Q) U E2).
Qed.
Lemma once : forall e t a u qs1 lang s qs2 r v, delivers e t -> clean_opt (a_url a) -> clean_opt (a_src_encoding a) -> usable a (wu u) -> unparsed (wu u) ->
  Forall asks qs1 -> Forall asks qs2 -> parse_of e a (u_encoding (uo_settings (wu u))) (UParse lang (Some s)) = Some (lang, s) ->
  urun e a u (qs1 ++ UParse lang (Some s) :: qs2) = Ok (r, v) ->
  let enc := settled e (asked_for a (u_encoding (uo_settings (wu u)))) s in
  let c := forest_content (prefix_of a (wu u)) (t lang enc s) in
  let doc := unit_xml (unit_tag a (wu v)) (unit_element a (wu v)) c in
  told (ustep e a v USrcml) = Ok (AText (Some doc)) /\
  told (ustep e a v UInner) = Ok (AText (Some (text_of c))) /\
  (url_safe a (wu v) -> told (ustep e a v UOuter) = Ok (AText (Some (unit_xml (outer_tag a (wu v)) (unit_element a (wu v)) c)))) /\
  told (ustep e a v ULoc) = Ok (ANumber (Z.of_nat (loc_written (extracted e doc)))) /\
  told (ustep e a v UHash) = Ok (AText (match u_hash (uo_settings (wu u)) with Some h => Some h | None => if opt (a_options a) 15 then Some (digest e s) else None end)) /\
  told (ustep e a v UEncoding) = Ok (AText (Some enc)).
Proof.
  intros e t a u qs1 lang s qs2 r v DL CU CS U UP Q1 Q2 PO RN enc c doc. destruct (run_app _ _ _ _ _ _ _ RN) as (r1 & u1 & r2 & R1 & R2 & _).
  pose proof (unparsed_run _ _ _ _ _ _ Q1 UP R1) as E1. cbn [urun] in R2. destruct (ustep e a u1 (UParse lang (Some s))) as [(x, v1)|] eqn:S; [|discriminate R2].
  cbn [obind fst snd] in R2. destruct (urun e a v1 qs2) as [(y, v2)|] eqn:R3; [|discriminate R2]. injection R2 as _ <-.
  destruct (start_fits _ _ U UP) as (F & C). rewrite <- E1 in F at 3.
  destruct (parse_fits e t a _ _ u1 lang (Some s) DL CU CS F C) as (st & w & E & F1 & C1 & FR & K). cbn [ustep] in S. rewrite E in S. injection S as _ ->.
  change (sn_encoding (start_seen (wu u))) with (u_encoding (uo_settings (wu u))) in K. rewrite PO in K. destruct K as (_ & x2 & X & SX & LX).
  rewrite E1 in X, FR. destruct UP as (_ & RW & FG & SR). rewrite SR in X. rewrite FG in FR.
  unfold see in F1. change (sn_encoding (start_seen (wu u))) with (u_encoding (uo_settings (wu u))) in F1. rewrite PO in F1.
  destruct F1 as (U1 & P1 & EN & HA & RW1 & W). cbn [sn_encoding sn_hash sn_trees sn_inner start_seen] in *.
  change (settled e _ s) with enc in W, EN.
  pose proof (asked_run _ _ _ _ _ _ Q2 R3) as AF. destruct (asked_inner _ _ AF) as (AI & AO & AC). destruct AF as (A1 & A2 & A3).
  set (v := v2) in *. assert (W2 : written a (prefix_of a (wu u)) (t lang enc s) (wu v)) by (eapply written_again; [exact W|rewrite A1; reflexivity..]).
  pose proof W2 as (B2 & D2 & _ & I2). destruct (content_inner _ _ _ _ W2) as (IN & IZ).
  assert (TX : text_of c = content (prefix_of a (wu u)) (t lang enc s)) by (unfold c; destruct (t lang enc s); reflexivity).
  split; [cbn [ustep told]; rewrite B2, D2; reflexivity|].
  split; [|split; [|split; [|split]]].
  - cbn [ustep]. rewrite B2. unfold get_inner. rewrite IZ, TX. destruct (content _ _) as [|c0 cr] eqn:CT; [reflexivity|].
    destruct A2 as [A2|(_ & z & A2 & A4)]; rewrite A2.
    + rewrite RW1, IN. reflexivity.
    + rewrite <- AI, IN in A4. injection A4 as <-. reflexivity.
  - intros US. assert (OW : outer (wu v) = Ok (unit_xml (outer_tag a (wu v)) (unit_element a (wu v)) c)).
    { apply outer_written; [exact D2|exact I2|apply U|exact US]. }
    cbn [ustep]. rewrite B2. unfold get_outer. destruct A3 as [A3|(_ & z & A3 & A4)]; rewrite A3.
    + rewrite FR, OW. reflexivity.
    + rewrite <- AO, OW in A4. injection A4 as <-. reflexivity.
  - cbn [ustep told]. replace (uo_loc (wu v)) with (uo_loc (wu v1)) by (rewrite A1; reflexivity). rewrite LX, X. replace (uo_srcml (wu v1)) with (uo_srcml (wu v)) by (rewrite A1; reflexivity). rewrite D2. reflexivity.
  - cbn [ustep told]. replace (uo_settings (wu v)) with (uo_settings (wu v1)) by (rewrite A1; reflexivity). rewrite HA. reflexivity.
  - cbn [ustep told]. replace (uo_settings (wu v)) with (uo_settings (wu v1)) by (rewrite A1; reflexivity). rewrite EN. reflexivity.
Qed.
