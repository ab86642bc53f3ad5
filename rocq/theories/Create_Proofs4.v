(** Creating srcML: the document (C57). *)
From Verif Require Import Base Text_Model Text_Spec Text_Proofs3 Api_Model Api_Spec Api_Proofs Api_Proofs3 Writer_Model Writer_Spec Writer_Proofs Writer_Proofs2 Writer_Proofs3 Writer_Proofs4 Writer_Proofs7 Archive_Model Archive_Spec Archive_Proofs Archive_Proofs2 Archive_Proofs3 Archive_Proofs4 Input_Model Create_Model Create_Spec Create_Proofs Create_Proofs2 Create_Proofs3.
Local Open Scope N_scope.

(** ** Settings that change nothing *)
Definition noop (a : archive) (c : call) : Prop := snd (step a c) = a.
Lemma lor_same : forall x k, N.testbit x k = true -> N.lor x (2 ^ k) = x.
Proof.
  intros x k H. apply N.bits_inj. intros j. rewrite N.lor_spec, pow2_bit. destruct (N.eqb_spec j k) as [->|NE]; [rewrite H; reflexivity|apply orb_false_r].
Qed.
Lemma with_same : forall a, with_options a (a_options a) = a. Proof. intros []; reflexivity. Qed.
Lemma archive_noop : forall a, N.testbit (a_options a) 14 = true -> noop a DisableSolitary.
Proof. intros a H. unfold noop. cbn [step snd]. unfold OPT_ARCHIVE. rewrite (lor_same _ _ H). apply with_same. Qed.
Lemma hash_noop : forall a, N.testbit (a_options a) 15 = true -> noop a EnableHash.
Proof. intros a H. unfold noop. cbn [step snd]. unfold OPT_HASH. rewrite (lor_same _ _ H). apply with_same. Qed.
Lemma noop_run : forall L a, Forall (noop a) L -> run L a = a.
Proof. intros L a F. induction F as [|c L H F IH]; [reflexivity|]. unfold run in *. cbn [fold_left]. rewrite H. exact IH. Qed.

(** ** The calls: settings, then units *)
Lemma calls_sets : forall L t a, calls_of a (map ESet L ++ t) = map Setting L ++ calls_of (run L a) t.
Proof. induction L as [|c L IH]; intros t a; [reflexivity|]. cbn [map app calls_of]. rewrite IH. reflexivity. Qed.
Lemma calls_later : forall a t xs, Forall op_quiet t -> Forall (noop a) (op_sets t) -> readings a (op_units t) xs -> later (calls_of a t) xs.
Proof.
  intros a. induction t as [|o t IH]; intros xs Q NO R; [inversion R; constructor|]. inversion Q as [|x y Q1 Q2]; subst. destruct o as [c|[own u]|s|]; try contradiction.
  - cbn [op_sets flat_map app] in NO. inversion NO as [|x y N1 N2]; subst. cbn [calls_of]. apply later_quiet; [exact I|]. rewrite N1. apply IH; assumption.
  - cbn [op_units flat_map app] in R. inversion R as [|x y l l' [R1 R2] R3]; subst. destruct y as [[ua' u'] c]. cbn [fst snd] in R1. injection R1 as -> ->. cbn [calls_of]. unfold owner. cbn [fst snd].
    apply later_unit. apply IH; assumption.
Qed.
Lemma calls_writing : forall a t xs, Forall op_quiet t -> Forall (noop a) (op_sets t) -> readings a (op_units t) xs ->
  exists L t', t = map ESet L ++ t' /\ Forall (noop a) L /\ writing (calls_of a t') xs.
Proof.
  intros a. induction t as [|o t IH]; intros xs Q NO R; [inversion R; subst; exists [], []; repeat split; constructor|]. inversion Q as [|x y Q1 Q2]; subst. destruct o as [c|[own u]|s|]; try contradiction.
  - cbn [op_sets flat_map app] in NO. inversion NO as [|x y N1 N2]; subst. destruct (IH xs Q2 N2 R) as (L & t' & -> & A & B). exists (c :: L), t'. split; [reflexivity|]. split; [constructor; assumption|exact B].
  - exists [], (EUnit (own, u) :: t). split; [reflexivity|]. split; [constructor|].
    cbn [op_units flat_map app] in R. inversion R as [|x y l l' [R1 R2] R3]; subst. destruct y as [[ua' u'] c]. cbn [fst snd] in R1. injection R1 as -> ->. cbn [calls_of]. unfold owner. cbn [fst snd].
    apply writing_unit. apply calls_later; assumption.
Qed.
Lemma readings_good : forall a us xs, readings a us xs -> Forall good_unit xs.
Proof. intros a us xs R. induction R as [|u x us xs [_ G] R IH]; constructor; assumption. Qed.

(** ** The archive that is only freed *)
Lemma free_trans : forall m t w id, am_trans m = Some (t, Some (id, false)) -> so_w (t_out t) = Some w -> so_didwrite (t_out t) = true ->
  am_files (archive_free m) = am_files m ++ [w_out (end_document w)].
Proof.
  intros m t w id T W D. unfold archive_free. rewrite T, W. unfold set_trans, deliver. cbn [am_files]. unfold out_close. rewrite W, D. reflexivity.
Qed.
Lemma freed_archive : forall m cs us id, opened m id false -> writing cs us -> is_archive (am_a m) = true -> Forall good_unit us -> a_pi (am_a m) = None -> a_macros (am_a m) = [] -> am_attributes m = [] ->
  exists rs m', arun m cs = Ok (rs, m') /\ am_files (archive_free m') = am_files m ++ [unfinished (am_a m) us].
Proof.
  intros m cs us id OP WR AR G PI MA AT. pose proof OP as (TR & RAW & TY & BUF & X).
  destruct WR as [|ua u c cs us LT].
  - exists [], m. split; [reflexivity|]. unfold archive_free. rewrite TR, BUF. reflexivity.
  - destruct (created _ _ _ _ BUF) as (t & r & wt & CT & WT).
    destruct (prepare_ok (am_a m) m id false [] t r CT eq_refl BUF) as (ER & F & OUT & O & M & F1 & P). rewrite AR in P. destruct P as (D & DW & W).
    cbn [app] in W. rewrite MA, AT in W. cbn [pairs_of macros_written fold_left] in W. set (n := element_name (root_namespaces (am_a m))) in *.
    set (w0 := Writer _ _ _ _) in W.
    inversion G as [|x y G1 G2]; subst. destruct G1 as [C RB]. cbn [fst snd] in C, RB.
    destruct (unit_ok (am_a m) ua u c _ _ [n] M C F1 W eq_refl eq_refl) as (t1 & E & M1 & F2 & D1 & DW1 & W1). cbn zeta in W1. rewrite AR in W1. rewrite D in D1, W1. cbn in D1.
    set (w1 := Writer _ _ _ _) in W1. set (m1 := set_trans m (am_buf m) (Some (t1, Some (id, false)))).
    assert (S1 : started m1 t1 (Some (id, false))) by (split; [exact TY|reflexivity]).
    destruct (units_ok (am_a m) cs us LT m1 t1 _ w1 [n] S1 M1 G2 F2 AR D1 DW1 W1 eq_refl eq_refl) as (rs & m2 & t2 & R & AC & SI & S2 & M2 & F3 & D2 & DW2 & W2).
    exists (RStatus ST_OK :: rs), m2. split.
    { cbn [arun astep]. unfold write_unit. rewrite RB. cbn [negb]. rewrite TY, TR, CT. cbn [obind fst snd].
      rewrite add_prepared by exact OUT. rewrite E. cbn [obind fst snd]. fold m1. rewrite R. reflexivity. }
    rewrite (free_trans m2 t2 _ id (proj2 S2) W2 DW2). destruct SI as (_ & _ & _ & _ & _ & _ & _ & FI & _). rewrite FI. cbn [m1 set_trans am_files]. f_equal. f_equal.
    assert (OW : w_out w1 = doc_start (am_a m) [] ++ txt ">" ++ [10; 10] ++ unit_doc (am_a m) 1 (ua, u, c)).
    { unfold w1, w0. cbn [w_out]. unfold write_raw. cbn [fst w_out w_nodes w_intag w_ns close_tag]. unfold close_tag. cbn [w_out w_intag w_nodes w_ns attrs flat_map app]. rewrite <- !app_assoc. reflexivity. }
    assert (OU : w_out (end_document (units_written (am_a m) us w1)) = w_out w1 ++ flat_map (fun x => [10; 10] ++ unit_doc (am_a m) 1 x) us ++ txt "</" ++ n ++ txt ">" ++ [10]).
    { unfold end_document. destruct us as [|x us]; cbn [units_written w_nodes w1 length end_all].
      - unfold end_element. cbn [w_nodes w_intag w_out w_ns w1]. cbn [flat_map app fst w_out]. rewrite <- !app_assoc. reflexivity.
      - assert (CW : close_tag w1 = w1) by reflexivity. rewrite CW. unfold end_element. cbn [w_nodes w_intag w_out w_ns fst]. rewrite <- !app_assoc. reflexivity. }
    rewrite OU, OW. unfold unfinished, unit_xml, doc_start. fold n. unfold instruction. rewrite PI. cbn [flat_map]. rewrite <- !app_assoc. reflexivity.
Qed.
Lemma freed_solitary : forall m cs us id, opened m id false -> writing cs us -> is_archive (am_a m) = false -> Forall good_unit us -> (length us <= 1)%nat -> 
  exists rs m', arun m cs = Ok (rs, m') /\ am_files (archive_free m') = am_files m ++ [match us with [] => [] | x :: _ => solitary_doc (am_a m) x end].
Proof.
  intros m cs us id OP WR AR G LEN. pose proof OP as (TR & RAW & TY & BUF & X).
  destruct WR as [|ua u c cs us LT].
  - exists [], m. split; [reflexivity|]. unfold archive_free. rewrite TR, BUF. reflexivity.
  - destruct us as [|x us]; [|cbn in LEN; lia]. 
    destruct (created _ _ _ _ BUF) as (t & r & wt & CT & WT).
    destruct (prepare_ok (am_a m) m id false [] t r CT eq_refl BUF) as (ER & F & OUT & O & M & F1 & P). rewrite AR in P. destruct P as (D & DW & W). cbn [app] in W.
    inversion G as [|x y G1 G2]; subst. destruct G1 as [C RB]. cbn [fst snd] in C, RB.
    destruct (unit_ok (am_a m) ua u c _ _ [] M C F1 W eq_refl eq_refl) as (t1 & E & M1 & F2 & D1 & DW1 & W1). cbn zeta in W1. rewrite AR in W1. rewrite D in D1, W1. cbn in D1.
    rewrite close_closed in W1. cbn [w_out] in W1.
    set (m1 := set_trans m (am_buf m) (Some (t1, Some (id, false)))).
    assert (S1 : started m1 t1 (Some (id, false))) by (split; [exact TY|reflexivity]).
    destruct (more_units (am_a m) cs [] LT m1 t1 _ _ S1 M1 G2 F2 AR D1 DW1 W1) as (rs & m2 & t2 & R & AC & SI & S2 & M2 & F3 & D2 & DW2 & W2).
    exists (RStatus ST_OK :: rs), m2. split.
    { cbn [arun astep]. unfold write_unit. rewrite RB. cbn [negb]. rewrite TY, TR, CT. cbn [obind fst snd].
      rewrite add_prepared by exact OUT. rewrite E. cbn [obind fst snd]. fold m1. rewrite R. reflexivity. }
    rewrite (free_trans m2 t2 _ id (proj2 S2) W2 DW2). destruct SI as (_ & _ & _ & _ & _ & _ & _ & FI & _). rewrite FI. cbn [m1 set_trans am_files]. f_equal. f_equal.
    cbn [end_document w_nodes length end_all w_out flat_map]. unfold solitary_doc. rewrite app_nil_r. destruct (a_pi (am_a m)); rewrite <- ?app_assoc; reflexivity.
Qed.
