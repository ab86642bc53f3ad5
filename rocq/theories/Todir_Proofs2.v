(** --to-dir (C62): the content of one file. *)
From Verif Require Import Base Text_Model Text_Spec Api_Model Api_Spec Api_Proofs Writer_Model Writer_Spec Archive_Model Archive_Spec Archive_Proofs2 Archive_Proofs3 Archive_Proofs4 Input_Model
  Create_Model Create_Spec Create_Proofs Create_Proofs2 Create_Proofs3 Create_Proofs5 Create_Proofs6 Todir_Model Todir_Spec Todir_Proofs.
Local Open Scope N_scope.

(** ** Freeing a closed archive *)
Lemma freed : forall m m', am_type m = IO_WRITE -> close m = Ok m' -> am_files (archive_free m') = am_files m'.
Proof.
  intros m m' T C. unfold close in C. rewrite T in C.
  assert (X : exists m1, am_type m1 = IO_WRITE /\ (am_raw m1 = true \/ exists t, am_trans m1 = Some t) /\
    (let m := close_trans m1 in
     obind (if am_raw m then match am_buf m with NoBuffer => Ok m | Buffer id mem s => Ok (set_trans (deliver m id mem s) NoBuffer (am_trans m)) | Freed => UB end else Ok m) (fun m =>
      let m := match am_memory m with
               | Some _ => AM (am_a m) (am_attributes m) (am_type m) (am_buf m) (am_trans m) (am_raw m) (am_next m) (am_memory m) None
                              (Some (am_x m)) (am_files m) (am_reader m)
               | None => m
               end in
      Ok (AM (am_a m) (am_attributes m) IO_INVALID (am_buf m) (am_trans m) (am_raw m) (am_next m) (am_memory m) (am_x m) (am_user m) (am_files m) (am_reader m)))) = Ok m').
  { destruct (am_raw m) eqn:R; [exists m; split; [exact T|split; [left; exact R|exact C]]|]. destruct (am_trans m) as [t|] eqn:TR; [exists m; split; [exact T|split; [right; exists t; exact TR|exact C]]|].
    destruct (create_trans m) as [t|]; [|discriminate C]. cbn [obind] in C. exists (set_trans m (am_buf m) (Some t)). split; [exact T|]. split; [right; exists t; reflexivity|exact C]. }
  clear C T m. destruct X as (m & T & X & C). cbv zeta in C.
  assert (Y : (exists t, am_trans (close_trans m) = Some (t, None)) \/ (am_trans (close_trans m) = None /\ am_raw (close_trans m) = true)).
  { unfold close_trans. destruct (am_trans m) as [[t r]|] eqn:TR.
    - left. destruct (so_w (t_out t)); [destruct r as [[id mem]|]|]; eexists; reflexivity.
    - right. split; [exact TR|]. destruct X as [X|(t & X)]; [exact X|discriminate X]. }
  set (c := close_trans m) in *. clearbody c. clear X T m.
  assert (W : forall w, (exists t, am_trans w = Some (t, None)) \/ (am_trans w = None /\ am_buf w = NoBuffer) -> am_files (archive_free w) = am_files w).
  { intros w [(t & E)|[E B]]; unfold archive_free; rewrite E; [destruct (so_w (t_out t)); reflexivity|rewrite B; reflexivity]. }
  destruct Y as [(t & Y)|[Y R]].
  - destruct (am_raw c) eqn:R.
    + destruct (am_buf c) as [|id mem s|] eqn:B; try discriminate C; cbn [obind] in C.
      * destruct (am_memory c) eqn:M; injection C as <-; apply W; left; exists t; exact Y.
      * cbn [set_trans deliver am_memory] in C. destruct (am_memory c) eqn:M; injection C as <-; apply W; left; exists t; exact Y.
    + cbn [obind] in C. destruct (am_memory c) eqn:M; injection C as <-; apply W; left; exists t; exact Y.
  - rewrite R in C. destruct (am_buf c) as [|id mem s|] eqn:B; try discriminate C; cbn [obind] in C.
    + destruct (am_memory c) eqn:M; injection C as <-; apply W; right; split; assumption.
    + cbn [set_trans deliver am_memory] in C. destruct (am_memory c) eqn:M; injection C as <-; apply W; right; split; try exact Y; reflexivity.
Qed.
Definition writes (c : aop) : Prop := match c with Setting _ | WriteUnit _ | WriteString _ _ => True | _ => False end.
Lemma type_run : forall cs m rs m', Forall writes cs -> arun m cs = Ok (rs, m') -> am_type m' = am_type m.
Proof.
  induction cs as [|c cs IH]; intros m rs m' F E; [injection E as _ <-; reflexivity|]. inversion F as [|x l F1 F2]; subst. cbn [arun] in E.
  destruct (astep m c) as [[r m1]|] eqn:S; [|discriminate E]. cbn [obind fst snd] in E. destruct (arun m1 cs) as [[r2 m2]|] eqn:E2; [|discriminate E]. cbn [obind fst snd] in E. injection E as _ <-.
  rewrite (IH _ _ _ F2 E2). destruct c as [| | |[[ua u]|]|[s|] len| | | |c]; try contradiction; cbn [astep] in S.
  - exact (write_type _ _ _ _ _ S).
  - injection S as _ <-. reflexivity.
  - destruct (len <? 0)%Z; [injection S as _ <-; reflexivity|]. destruct (_ <? len)%Z; [discriminate S|]. destruct (write_raw_string m _) as [m3|] eqn:R; [|discriminate S]. cbn [obind] in S. injection S as _ <-. exact (raw_type _ _ _ R).
  - injection S as _ <-. reflexivity.
  - injection S as _ <-. reflexivity.
Qed.
Lemma acall_writes : forall a ops cs, Forall2 (acall a) ops cs -> Forall writes cs.
Proof. intros a ops cs F. induction F as [|o c ops cs A F IH]; constructor; [|exact IH]. destruct A; exact I. Qed.
(** the files of the archive at the end *)
Lemma ended : forall k cs rs m', am_type k = IO_WRITE -> Forall writes cs -> arun k (cs ++ [Close]) = Ok (rs, m') -> am_files (archive_free m') = am_files m'.
Proof.
  intros k cs rs m' T F E. rewrite arun_app in E. destruct (arun k cs) as [[r1 m1]|] eqn:E1; [|discriminate E]. cbn [obind fst snd arun astep] in E.
  destruct (close m1) as [m2|] eqn:C; [|discriminate E]. cbn [obind fst snd] in E. injection E as _ <-. apply (freed m1); [|exact C]. rewrite (type_run _ _ _ _ F E1). exact T.
Qed.

(** ** The file can be created *)
Definition ready_file (a : archive) (ok : bool) : am := AM a [] IO_WRITE (if ok then Buffer 0 false [] else NoBuffer) None false 1 None None None [] None.
Lemma file_ready : forall a m ok, idle a m -> arun (clone m) [Setting EnableSolitary; Setting DisableHash; OpenOutput true ok] = Ok (oks 3, ready_file (in_file false a) ok).
Proof.
  intros a m ok [A B]. unfold clone. cbn [arun astep negb obind fst snd am_a am_attributes am_type am_buf am_trans am_raw am_next am_memory am_x am_user am_files am_reader].
  rewrite file_settings, B. unfold alike in A. rewrite A. reflexivity.
Qed.
Lemma request_units : forall m q, has_unit q = true -> units_of q <> [] -> (m = Plain \/ match q with Parsed (RUnits (_ :: _)) _ => True | _ => False end) ->
  write_request m q = (if several q then [ESet DisableSolitary] else []) ++ map EUnit (units_of q).
Proof.
  intros m [w|[|b|n|x|[|u [|v us]]] [[own y]|]] H N M; try discriminate H; try (exfalso; apply N; reflexivity); try reflexivity; try (destruct M as [->|[]]; reflexivity);
    cbn [write_request length Nat.ltb Nat.leb several units_of map app]; rewrite app_nil_r; reflexivity.
Qed.
Lemma unit_calls : forall a us cs xs, Forall2 (acall a) (map EUnit us) cs -> readings a us xs ->
  exists ys, Forall2 unit_alike ys xs /\ Forall good_unit ys /\ cs = map (fun y => WriteUnit (Some (fst y))) ys.
Proof.
  induction us as [|[own u] us IH]; intros cs xs F R; cbn [map] in F; inversion F as [|o c o' cs' AC F']; subst; inversion R as [|z x us' xs' RX R']; subst.
  - exists []. repeat split; constructor.
  - destruct (IH _ _ F' R') as (ys & Y1 & Y2 & ->). destruct RX as [RX [G1 G2]]. destruct x as [[ua v] c']. cbn [fst snd] in *. injection RX as -> ->. inversion AC as [|b own' u' AL|]; subst.
    exists ((match own with Some ua => ua | None => b end, u, c') :: ys). split; [constructor; [|exact Y1]|].
    + split; [|split; reflexivity]. cbn [fst snd]. unfold owner. cbn [fst]. destruct own; [reflexivity|exact AL].
    + split; [constructor; [|exact Y2]|reflexivity]. split; cbn [fst snd]; [|exact G2]. unfold owner in G1. cbn [fst] in G1. destruct own; [exact G1|]. apply (content_alike a); [|exact G1]. unfold alike in *. symmetry. exact AL.
Qed.
Lemma units_later : forall ys, later (map (fun y : archive * uobj * option bytes => WriteUnit (Some (fst y))) ys) ys.
Proof. induction ys as [|[[ua u] c] ys IH]; cbn [map fst]; constructor. exact IH. Qed.
Lemma units_writing : forall ys, writing (map (fun y : archive * uobj * option bytes => WriteUnit (Some (fst y))) ys) ys.
Proof. destruct ys as [|[[ua u] c] ys]; cbn [map fst]; constructor. apply units_later. Qed.
Lemma opened_units : forall k ys, opened k 0 false -> am_attributes k = [] -> am_files k = [] -> ys <> [] -> Forall good_unit ys -> (is_archive (am_a k) = false -> (length ys <= 1)%nat) ->
  exists rs m', arun k (map (fun y => WriteUnit (Some (fst y))) ys ++ [Close]) = Ok (rs, m') /\ am_files m' = [document true (am_a k) ys].
Proof.
  intros k ys O AT FI NE G L. destruct (is_archive (am_a k)) eqn:A.
  - destruct (archive_document k _ ys 0 false O (units_writing ys) A G) as (rs & m' & E & _ & _ & D & _). exists (rs ++ [RVoid]), m'. split; [exact E|]. rewrite D, FI, AT. unfold document. rewrite A. reflexivity.
  - destruct (solitary_document k _ ys 0 false O (units_writing ys) A G) as (rs & m' & E & _ & _ & D & _). exists (rs ++ [RVoid]), m'. split; [exact E|]. rewrite D, FI. unfold document. rewrite A.
    destruct ys as [|x [|y ys]]; [congruence| |specialize (L eq_refl); cbn in L; lia]. cbn [solitary_all flat_map]. rewrite app_nil_r. reflexivity.
Qed.
Lemma several_length : forall q, several q = false -> (length (units_of q) <= 1)%nat.
Proof. intros q H. unfold several in H. destruct (units_of q) as [|x [|y l]]; [cbn; lia|cbn; lia|discriminate H]. Qed.
Lemma text_calls : forall a ops cs, Forall2 (acall a) ops cs -> Forall op_text ops -> forall b, cs = calls_of b ops.
Proof.
  intros a ops cs F. induction F as [|o c ops cs A F IH]; intros T b; [reflexivity|]. inversion T as [|x l T1 T2]; subst. destruct A; cbn [calls_of]; [|destruct T1|]; f_equal; apply IH; exact T2.
Qed.
Lemma written_file : forall m a q s cs, has_unit q = true -> file_of m a q s -> Forall2 (acall a) (write_request m q) cs ->
  exists rs m', arun (ready_file (in_file false a) true) (cs ++ [Close]) = Ok (rs, m') /\ am_files (archive_free m') = [s].
Proof.
  intros m a q s cs H FO AC. pose proof (acall_writes _ _ _ AC) as W.
  assert (X : exists rs m', arun (ready_file (in_file false a) true) (cs ++ [Close]) = Ok (rs, m') /\ am_files m' = [s]).
  { destruct FO as [xs NE MO R ->|P].
    - rewrite (request_units m q H NE MO) in AC. apply Forall2_app_inv_l in AC. destruct AC as (c1 & c2 & A1 & A2 & ->).
      destruct (unit_calls a _ _ _ A2 R) as (ys & Y1 & Y2 & ->).
      assert (LY : length ys = length (units_of q)) by (transitivity (length xs); [clear -Y1; induction Y1; cbn; congruence|exact (readings_length _ _ _ R)]).
      assert (NY : ys <> []) by (intros ->; apply NE; destruct (units_of q); [reflexivity|discriminate LY]).
      rewrite <- (document_alike _ _ _ Y1).
      set (k := ready_file (in_file (several q) a) true).
      assert (K : exists r1, arun (ready_file (in_file false a) true) c1 = Ok (r1, k)).
      { unfold k. destruct (several q).
        - inversion A1 as [|o c o' c' B1 B2]; subst. inversion B2; subst. inversion B1; subst. cbn [arun astep ready_file am_a]. cbn [obind fst snd]. rewrite file_several. eexists. reflexivity.
        - inversion A1; subst. eexists. reflexivity. }
      destruct K as (r1 & K). rewrite <- app_assoc, arun_app, K. cbn [obind fst snd].
      destruct (opened_units k ys) as (rs & m' & E & D); try assumption; [repeat split|reflexivity|reflexivity| |].
      + cbn [k ready_file am_a]. rewrite file_archive, LY. intros S. exact (several_length _ S).
      + cbn [k ready_file am_a] in D. rewrite E. cbn [obind fst snd]. eexists _, m'. split; [reflexivity|exact D].
    - destruct (request_text m q (Some s) P) as (T1 & T2 & T3). specialize (T2 ltac:(discriminate)). rewrite (text_calls _ _ _ AC T1 a).
      destruct (text_run _ a (ready_file (in_file false a) true) [] false ltac:(repeat split; exists 0%nat; reflexivity) T1) as (rs & m1 & E & D). rewrite T3 in D. cbn [app orb] in D.
      destruct (op_strings (write_request m q)); [congruence|]. destruct (text_end m1 s true D) as (rs2 & m2 & E2 & D2). rewrite arun_app, E. cbn [obind fst snd]. rewrite E2. cbn [obind fst snd]. eexists _, m2. split; [reflexivity|exact D2]. }
  destruct X as (rs & m' & E & D). exists rs, m'. split; [exact E|]. rewrite (ended (ready_file (in_file false a) true) _ _ _ eq_refl W E). exact D.
Qed.

(** ** It cannot *)
Definition nowhere (m : am) : Prop := am_buf m = NoBuffer /\ am_files m = [] /\ (am_trans m = None \/ exists t, am_trans m = Some (t, None)) /\ am_type m = IO_WRITE.
Lemma add_ok : forall ua t u c, content ua u c -> exists r, add_unit ua t u = Ok r.
Proof.
  intros ua t u c (b & E & C). unfold add_unit. destruct (t_outputting t); [eexists; reflexivity|]. unfold unit_body. rewrite E. cbn [obind]. unfold selects_revision in C.
  destruct (a_revision_number ua) as [k|]; [|cbn [obind]; eexists; reflexivity]. destruct (find_uri (a_namespaces ua) DIFF_URI); [|cbn [obind]; eexists; reflexivity].
  destruct C as (b' & E' & _). rewrite E'. cbn [obind]. eexists. reflexivity.
Qed.
Lemma nowhere_run : forall cs m, nowhere m -> Forall ok_call cs -> exists rs m', arun m cs = Ok (rs, m') /\ nowhere m'.
Proof.
  induction cs as [|c cs IH]; intros m N F; [exists [], m; split; [reflexivity|exact N]|]. inversion F as [|x l F1 F2]; subst.
  assert (S : exists r m1, astep m c = Ok (r, m1) /\ nowhere m1).
  { destruct N as (N1 & N2 & N3 & N4). destruct c as [| | |[[ua u]|]|[s|] n| | | |c]; try contradiction; cbn [astep].
    - destruct F1 as (c & F1). unfold write_unit. destruct (uo_read_body u); cbn [negb]; [|eexists _, m; split; [reflexivity|repeat split; assumption]]. rewrite N4.
      assert (T : exists t, match am_trans m with Some t => Ok t | None => create_trans m end = Ok (t, None)).
      { destruct N3 as [->|(t & ->)]; [|exists t; reflexivity]. unfold create_trans. rewrite N1. eexists. reflexivity. }
      destruct T as (t & ->). cbn [obind fst snd]. destruct (add_ok ua t u c F1) as (r & ->). cbn [obind]. eexists _, _. split; [reflexivity|]. repeat split; try assumption. right. eexists. reflexivity.
    - cbn [ok_call] in F1. subst n. replace (Z.of_nat (length s) <? 0)%Z with false by (symmetry; apply Z.ltb_ge; lia). rewrite Z.ltb_irrefl. unfold write_raw_string. rewrite N1. cbn [obind].
      eexists _, _. split; [reflexivity|]. repeat split; assumption.
    - eexists _, _. split; [reflexivity|]. repeat split; assumption. }
  destruct S as (r & m1 & S & N'). destruct (IH m1 N' F2) as (rs & m' & E & N2). cbn [arun]. rewrite S. cbn [obind fst snd]. rewrite E. cbn [obind fst snd]. eexists _, m'. split; [reflexivity|exact N2].
Qed.
Lemma nowhere_close : forall m, nowhere m -> exists m', close m = Ok m' /\ am_files m' = [].
Proof.
  intros m (N1 & N2 & N3 & N4).
  assert (Y : forall k t, am_buf k = NoBuffer -> am_files k = [] -> am_trans k = Some (t, None) -> am_buf (close_trans k) = NoBuffer /\ am_files (close_trans k) = []).
  { intros k t K1 K2 K3. unfold close_trans. rewrite K3. destruct (so_w (t_out t)); split; assumption. }
  unfold close. rewrite N4.
  assert (X : exists k, (match am_raw m with false => match am_trans m with None => obind (create_trans m) (fun t => Ok (set_trans m (am_buf m) (Some t))) | Some _ => Ok m end | true => Ok m end) = Ok k /\
     am_buf (close_trans k) = NoBuffer /\ am_files (close_trans k) = []).
  { destruct (am_raw m).
    - exists m. split; [reflexivity|]. destruct N3 as [N3|(t & N3)]; [|exact (Y m t N1 N2 N3)]. unfold close_trans. rewrite N3. split; assumption.
    - destruct N3 as [N3|(t & N3)]; rewrite N3; [|exists m; split; [reflexivity|exact (Y m t N1 N2 N3)]].
      assert (CT : exists t, create_trans m = Ok (t, None)) by (unfold create_trans; rewrite N1; eexists; reflexivity). destruct CT as (t & CT). rewrite CT. cbn [obind].
      eexists. split; [reflexivity|]. apply (Y _ t); [exact N1|exact N2|reflexivity]. }
  destruct X as (k & -> & K1 & K2). cbn [obind]. rewrite K1. destruct (am_raw (close_trans k)); cbn [obind]; destruct (am_memory (close_trans k)); eexists; split; try reflexivity; exact K2.
Qed.
Lemma acall_ok : forall m a q s cs, has_unit q = true -> file_of m a q s -> Forall2 (acall a) (write_request m q) cs -> Forall ok_call cs.
Proof.
  intros m a q s cs H FO AC. destruct FO as [xs NE MO R _|P].
  - rewrite (request_units m q H NE MO) in AC. apply Forall2_app_inv_l in AC. destruct AC as (c1 & c2 & A1 & A2 & ->). destruct (unit_calls a _ _ _ A2 R) as (ys & _ & Y2 & ->). apply Forall_app. split.
    + destruct (several q); inversion A1 as [|o c o' c' B1 B2]; subst; constructor; [|inversion B2; constructor]. inversion B1; subst. exact I.
    + apply Forall_map. eapply Forall_impl; [|exact Y2]. intros [[ua u] c] [G _]. cbn [fst snd ok_call] in *. exists c. exact G.
  - destruct (request_text m q (Some s) P) as (T1 & _ & _). revert T1. induction AC as [|o c ops cs A AC IH]; intros T; [constructor|]. inversion T as [|x l T1 T2]; subst. constructor; [|exact (IH T2)].
    destruct A; [exact I|destruct T1|reflexivity].
Qed.
Lemma unwritten_file : forall m a q s cs, has_unit q = true -> file_of m a q s -> Forall2 (acall a) (write_request m q) cs ->
  exists rs m', arun (ready_file (in_file false a) false) (cs ++ [Close]) = Ok (rs, m') /\ am_files (archive_free m') = [].
Proof.
  intros m a q s cs H FO AC. destruct (nowhere_run cs (ready_file (in_file false a) false)) as (rs & m1 & E & N); [repeat split; left; reflexivity|exact (acall_ok _ _ _ _ _ H FO AC)|].
  destruct (nowhere_close m1 N) as (m2 & C & D). assert (F : arun (ready_file (in_file false a) false) (cs ++ [Close]) = Ok (rs ++ [RVoid], m2)).
  { rewrite arun_app, E. cbn [obind fst snd arun astep]. rewrite C. reflexivity. }
  exists (rs ++ [RVoid]), m2. split; [exact F|]. rewrite (ended (ready_file (in_file false a) false) _ _ _ eq_refl (acall_writes _ _ _ AC) F). exact D.
Qed.
Lemma no_bad : forall m a q s, has_unit q = true -> file_of m a q s -> Forall (fun o => match o with EBad => False | _ => True end) (write_request m q).
Proof.
  intros m a q s H [xs NE MO R _|P].
  - rewrite (request_units m q H NE MO). apply Forall_app. split; [destruct (several q); repeat constructor|]. apply Forall_map, Forall_forall. intros; exact I.
  - destruct (request_text m q (Some s) P) as (T1 & _ & _). eapply Forall_impl; [|exact T1]. intros [] T; try exact I. destruct T.
Qed.

(** ** All files *)
Lemma all_files : forall creates m a qs ps l, files creates m a qs ps l -> forall t mo, idle a mo -> calm t -> others t = asked m ps qs -> frun creates mo None t = Ok l.
Proof.
  intros creates m a qs ps l F. induction F as [|q p qs ps l NU SC F IH|q d n s qs ps l H FO F IH]; intros t mo ID CA E.
  - revert mo ID. induction t as [|o t IH]; intros mo ID; [reflexivity|]. destruct o as [c|q|o|]; try discriminate E. inversion CA as [|x l C1 C2]; subst. destruct (idle_set a mo c ID C1) as (r & m1 & S & ID').
    cbn [frun]. rewrite S. cbn [obind snd]. apply IH; assumption.
  - apply IH; try assumption. rewrite E. cbn [asked]. destruct q as [w|[|b|v|x|[|u us]] [[own y]|]]; try discriminate SC; try discriminate NU; reflexivity.
  - assert (FR : file_request m (At (Some d) (Some n)) q = FOpen (unit_file d n) :: map FDo (write_request m q) ++ [FClose]) by (destruct q as [|r [u|]]; try discriminate H; reflexivity).
    assert (UF : unit_file d n = d ++ txt "/" ++ n ++ txt ".xml") by reflexivity.
    cbn [asked] in E. rewrite FR in E. cbn [app] in E. rewrite <- app_assoc in E. cbn [app] in E.
    revert mo ID. induction t as [|o t IHt]; intros mo ID; [discriminate E|]. destruct o as [c|q'|o|]; try discriminate E.
    + inversion CA as [|x l' C1 C2]; subst. destruct (idle_set a mo c ID C1) as (r & m1 & S & ID'). cbn [frun]. rewrite S. cbn [obind snd]. apply IHt; assumption.
    + change (others (FOpen q' :: t)) with (FOpen q' :: others t) in E. injection E as -> E. cbn [frun]. rewrite (file_ready a mo _ ID). cbn [obind snd].
      destruct (file_run creates a _ t mo (ready_file (in_file false a) (creates (unit_file d n))) (unit_file d n) _ ID CA E (no_bad _ _ _ _ H FO)) as (cs & t' & m' & A1 & A2 & A3 & A4 & A5). rewrite A5. rewrite UF.
      destruct (creates (d ++ txt "/" ++ n ++ txt ".xml")).
      * destruct (written_file m a q s cs H FO A1) as (rs & m2 & E2 & D). rewrite E2. cbn [obind snd]. rewrite (IH t' m' A2 A3 A4). cbn [obind]. rewrite D. reflexivity.
      * destruct (unwritten_file m a q s cs H FO A1) as (rs & m2 & E2 & D). rewrite E2. cbn [obind snd]. rewrite (IH t' m' A2 A3 A4). cbn [obind]. rewrite D. reflexivity.
Qed.
