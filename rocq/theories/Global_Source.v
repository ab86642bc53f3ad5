(** srcml() from source code to srcML. *)
From Verif Require Import Base Text_Model Text_Spec Text_Proofs Api_Model Api_Spec Api_Proofs Api_Proofs2 Api_Proofs3 Writer_Model Writer_Spec Writer_Proofs3 Writer_Proofs8 Writer_Proofs10 Archive_Model Archive_Spec Archive_Proofs2 Archive_Proofs4
  Root_Model Root_Spec Root_Proofs5 Source_Model Source_Spec Source_Proofs4 Source_Examples Whole_Spec Whole_Examples Reuse_Model Create_Model Global_Model Global_Spec Global_Settings.
From Verif Require Properties_Api Properties_Archive.
Local Open Scope N_scope.

(** ** The end of an archive *)
Lemma free_closed : forall m m', am_type m = IO_WRITE -> am_raw m = false -> close m = Ok m' -> am_files (archive_free m') = am_files m'.
Proof.
  intros m m' T R C. unfold close in C. rewrite T, R in C.
  assert (X : forall k, am_raw k = false -> am_trans k <> None -> forall k', obind (if am_raw (close_trans k) then match am_buf (close_trans k) with NoBuffer => Ok (close_trans k) | Buffer id mem s => Ok (set_trans (deliver (close_trans k) id mem s) NoBuffer (am_trans (close_trans k))) | Freed => UB end
      else Ok (close_trans k)) (fun m => let m := match am_memory m with Some _ => AM (am_a m) (am_attributes m) (am_type m) (am_buf m) (am_trans m) (am_raw m) (am_next m) (am_memory m) None (Some (am_x m)) (am_files m) (am_reader m) | None => m end in
      Ok (AM (am_a m) (am_attributes m) IO_INVALID (am_buf m) (am_trans m) (am_raw m) (am_next m) (am_memory m) (am_x m) (am_user m) (am_files m) (am_reader m))) = Ok k' -> exists t, am_trans k' = Some (t, None)).
  { intros k RK TK k' E. unfold close_trans in E. destruct (am_trans k) as [[t r]|] eqn:ET; [|contradiction].
    destruct (so_w (t_out t)) as [w|], r as [[id mem]|]; cbn [set_trans deliver am_raw] in E; rewrite RK in E; cbn [obind] in E; destruct (am_memory _); cbn in E; injection E as <-; cbn; eauto. }
  assert (Y : exists t, am_trans m' = Some (t, None)).
  { destruct (am_trans m) as [t|] eqn:ET.
    - cbn [obind] in C. eapply X; [exact R|rewrite ET; discriminate|exact C].
    - destruct (create_trans m) as [t|]; [|discriminate C]. cbn [obind] in C. eapply X; [|rewrite (eq_refl : am_trans (set_trans m (am_buf m) (Some t)) = Some t); discriminate|exact C]. exact R. }
  destruct Y as (t & Y). unfold archive_free. rewrite Y. destruct (so_w (t_out t)); reflexivity.
Qed.
(** the archive when the unit is parsed *)
Definition ready_am (a : archive) (ok : bool) : am := AM a [] IO_WRITE (if ok then Buffer 0 false [] else NoBuffer) None false 1 None None None [] None.
Definition lone_archive (g : globals) : archive := snd (Api_Model.step (g_archive g) EnableSolitary).
Lemma to_srcml_is : forall sys g input output, to_srcml sys g input output =
  let m := ready_am (lone_archive g) (s_creates sys output) in
  obind (parse_filename sys (lone_archive g) (source_unit g (lone_archive g) input) input) (fun p =>
    if is_ok (fst p) then obind (Archive_Model.write_unit m (lone_archive g) (wu (snd p))) (fun w => finish g (match fst w with RStatus s => s | _ => ST_OK end) (snd w))
    else finish g (fst p) m).
Proof. intros. unfold to_srcml. cbn [astep negb obind fst snd]. reflexivity. Qed.
Lemma lone_is : forall g, is_archive (lone_archive g) = false.
Proof. intros g. unfold is_archive, lone_archive. cbn [Api_Model.step snd with_options a_options]. unfold OPT_ARCHIVE. rewrite N.ldiff_spec, N.pow2_bits_true. apply andb_false_r. Qed.
Lemma ready_opened : forall a, opened (ready_am a true) 0 false.
Proof. intros a. repeat split. Qed.
(** the unit is written *)
Lemma finish_unit : forall g u c, good_unit (lone_archive g, u, c) -> exists m, Archive_Model.write_unit (ready_am (lone_archive g) true) (lone_archive g) u = Ok (RStatus ST_OK, m) /\
  finish g ST_OK m = Ok (ST_OK, g, Some (solitary_doc (lone_archive g) (lone_archive g, u, c))).
Proof.
  intros g u c GU. set (a := lone_archive g) in *.
  destruct (solitary_document (ready_am a true) [WriteUnit (Some (a, u))] [(a, u, c)] 0 false (ready_opened a) ltac:(constructor; constructor) (lone_is g) ltac:(constructor; [exact GU|constructor])) as (rs & m' & E & AC & _ & D).
  cbn [app arun astep] in E. pose proof (proj2 GU) as RB. cbn [fst snd] in RB.
  destruct (Archive_Model.write_unit (ready_am a true) a u) as [[w m]|] eqn:W; [|discriminate E]. cbn [obind fst snd] in E.
  destruct (close m) as [m1|] eqn:C; [|discriminate E]. cbn [obind fst snd] in E. injection E as ER <-.
  assert (WS : w = RStatus ST_OK /\ am_type m = IO_WRITE /\ am_raw m = false).
  { unfold Archive_Model.write_unit in W. rewrite RB in W. cbn [negb ready_am am_type am_trans] in W. destruct (create_trans _); [|discriminate W]. cbn [obind] in W. destruct (add_unit _ _ _); [|discriminate W]. cbn [obind] in W. injection W as <- <-. auto. }
  destruct WS as (-> & T & R). exists m. split; [reflexivity|]. unfold finish. rewrite C. cbn [obind]. rewrite (free_closed _ _ T R C). destruct D as (D & _). rewrite D. cbn [ready_am am_files app concat]. rewrite app_nil_r.
  cbn [ready_am am_a]. rewrite (Properties_Archive.C23_solitary_partial a (a, u, c)). reflexivity.
Qed.
(** no unit is written *)
Lemma finish_none : forall g st, finish g st (ready_am (lone_archive g) true) =
  Ok (st, g, Some (xml_declaration (lone_archive g) ++ instruction (lone_archive g) ++ match a_pi (g_archive g) with Some _ => [10] | None => [] end)).
Proof.
  intros g st. set (a := lone_archive g). destruct (solitary_document (ready_am a true) [] [] 0 false (ready_opened a) ltac:(constructor) (lone_is g) ltac:(constructor)) as (rs & m' & E & _ & _ & D).
  cbn [app arun astep] in E. destruct (close (ready_am a true)) as [m1|] eqn:C; [|discriminate E]. cbn [obind fst snd] in E. injection E as _ <-.
  unfold finish. rewrite C. cbn [obind]. rewrite (free_closed (ready_am a true) m1 eq_refl eq_refl C). destruct D as (D & _). rewrite D. cbn [ready_am am_files am_a app concat]. rewrite app_nil_r.
  change (a_pi a) with (a_pi (g_archive g)). unfold solitary_all. cbn [app]. destruct (a_pi (g_archive g)); reflexivity.
Qed.
(** the output cannot be created *)
Lemma nowhere : forall m, am_buf m = NoBuffer -> am_files m = [] -> am_type m = IO_WRITE -> am_raw m = false -> (am_trans m = None \/ exists t, am_trans m = Some (t, None)) ->
  forall g st r, finish g st m = Ok r -> r = (st, g, None).
Proof.
  intros m B F T R TR g st r E. unfold finish in E. destruct (close m) as [m'|] eqn:C; [|discriminate E]. cbn [obind] in E. rewrite (free_closed _ _ T R C) in E.
  assert (X : am_files m' = []).
  { unfold close in C. rewrite T, R in C.
    assert (Y : forall k t, am_raw k = false -> am_files k = [] -> am_trans k = Some (t, None) -> am_files (close_trans k) = [] /\ am_raw (close_trans k) = false).
    { intros k t K1 K2 K3. unfold close_trans. rewrite K3. destruct (so_w (t_out t)); cbn; auto. }
    destruct (am_trans m) as [[t r0]|] eqn:ET.
    - destruct TR as [TR|(t' & TR)]; [discriminate TR|]. injection TR as -> ->. cbn [obind] in C. destruct (Y m t' R F ET) as (Y1 & Y2). rewrite Y2 in C. cbn [obind] in C. destruct (am_memory (close_trans m)); injection C as <-; exact Y1.
    - assert (CT : exists t, create_trans m = Ok (t, None)) by (unfold create_trans; rewrite B; eauto). destruct CT as (t & CT). rewrite CT in C. cbn [obind] in C. set (k := set_trans m (am_buf m) (Some (t, None))) in *. destruct (Y k t R F eq_refl) as (Y1 & Y2). rewrite Y2 in C. cbn [obind] in C. destruct (am_memory (close_trans k)); injection C as <-; exact Y1. }
  rewrite X in E. injection E as <-. reflexivity.
Qed.
Lemma not_created : forall sys g input output st g' w, s_creates sys output = false -> to_srcml sys g input output = Ok (st, g', w) -> w = None.
Proof.
  intros sys g input output st g' w C E. rewrite to_srcml_is, C in E. cbv zeta in E. destruct (parse_filename _ _ _ _) as [[ps v]|]; [|discriminate E]. cbn [obind fst snd] in E. destruct (is_ok ps).
  - destruct (Archive_Model.write_unit _ _ _) as [[ws m]|] eqn:W; [|discriminate E]. cbn [obind fst snd] in E.
    assert (X : am_buf m = NoBuffer /\ am_files m = [] /\ am_type m = IO_WRITE /\ am_raw m = false /\ (am_trans m = None \/ exists t, am_trans m = Some (t, None))).
    { unfold Archive_Model.write_unit in W. destruct (negb _); [injection W as _ <-; cbn; auto 6|]. cbn [ready_am am_type am_trans create_trans am_buf obind] in W. cbn [obind fst snd] in W.
      destruct (add_unit _ _ _) as [q|]; [|discriminate W]. cbn [obind] in W. injection W as _ <-. cbn. repeat (split; [reflexivity|]). right. eauto. }
    destruct X as (X1 & X2 & X3 & X4 & X5). pose proof (nowhere m X1 X2 X3 X4 X5 _ _ _ E) as Y. injection Y as _ _ ->. reflexivity.
  - assert (Y := nowhere (ready_am (lone_archive g) false) eq_refl eq_refl eq_refl eq_refl (or_introl eq_refl) _ _ _ E). injection Y as _ _ ->. reflexivity.
Qed.
