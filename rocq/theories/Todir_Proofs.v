(** --to-dir (C62): the order of calls, and the archive of one file. *)
From Verif Require Import Base Text_Model Text_Spec Api_Model Api_Spec Api_Proofs Writer_Model Writer_Spec Archive_Model Archive_Spec Archive_Proofs2 Archive_Proofs3 Archive_Proofs4 Input_Model
  Create_Model Create_Spec Create_Proofs Create_Proofs2 Create_Proofs3 Create_Proofs5 Create_Proofs6 Todir_Model Todir_Spec.
Local Open Scope N_scope.

(** ** Settings up to the two bits the main thread changes late *)
Definition alike (a b : archive) : Prop := in_file false a = in_file false b.
Lemma with_same : forall a b o, with_options a o = with_options b o -> forall o', with_options a o' = with_options b o'.
Proof. intros a b o H o'. unfold with_options in *. injection H. intros. f_equal; assumption. Qed.
Lemma alike_fields : forall a b, alike a b -> a_namespaces a = a_namespaces b /\ a_revision_number a = a_revision_number b.
Proof.
  intros a b H. unfold alike, in_file in H. split; [exact (f_equal a_namespaces H)|exact (f_equal a_revision_number H)].
Qed.
Lemma alike_in_file : forall s a b, alike a b -> in_file s a = in_file s b.
Proof.
  intros s a b H. destruct s; [|exact H]. unfold alike, in_file in *.
  assert (O : N.clearbit (N.clearbit (a_options a) 15) 14 = N.clearbit (N.clearbit (a_options b) 15) 14) by exact (f_equal a_options H).
  assert (P : N.setbit (N.clearbit (a_options a) 15) 14 = N.setbit (N.clearbit (a_options b) 15) 14).
  { apply N.bits_inj. intros k. pose proof (f_equal (fun x => N.testbit x k) O) as Q. cbn beta in Q. destruct (N.eq_dec k 14) as [->|NE]; [rewrite !N.setbit_eq; reflexivity|].
    rewrite !N.setbit_neq by congruence. rewrite !(N.clearbit_neq _ 14) in Q by congruence. exact Q. }
  rewrite P. rewrite O in H. exact (with_same _ _ _ H _).
Qed.
Lemma in_file_options : forall s a o, in_file s (with_options a o) = with_options a (if s then N.setbit (N.clearbit o 15) 14 else N.clearbit (N.clearbit o 15) 14).
Proof. reflexivity. Qed.
Lemma alike_mild : forall a c, mild c -> alike (snd (step a c)) a.
Proof.
  intros a c [->| ->]; unfold alike; cbn [step snd]; rewrite in_file_options; unfold in_file; f_equal; apply N.bits_inj; intros k.
  - destruct (N.eq_dec k 14) as [->|A]; [rewrite !N.clearbit_eq; reflexivity|]. rewrite !(N.clearbit_neq _ 14) by congruence.
    destruct (N.eq_dec k 15) as [->|B]; [rewrite !N.clearbit_eq; reflexivity|]. rewrite !(N.clearbit_neq _ 15) by congruence. unfold OPT_ARCHIVE. rewrite N.lor_spec, N.pow2_bits_false by congruence. apply orb_false_r.
  - destruct (N.eq_dec k 14) as [->|A]; [rewrite !N.clearbit_eq; reflexivity|]. rewrite !(N.clearbit_neq _ 14) by congruence.
    destruct (N.eq_dec k 15) as [->|B]; [rewrite !N.clearbit_eq; reflexivity|]. rewrite !(N.clearbit_neq _ 15) by congruence. unfold OPT_HASH. rewrite N.lor_spec, N.pow2_bits_false by congruence. apply orb_false_r.
Qed.
Lemma file_settings : forall a, snd (step (snd (step a EnableSolitary)) DisableHash) = in_file false a.
Proof.
  intros a. cbn [step snd]. unfold in_file, with_options. cbn [a_options]. f_equal; apply N.bits_inj; intros k.
  unfold OPT_HASH, OPT_ARCHIVE. rewrite !N.ldiff_spec. 
  destruct (N.eq_dec k 14) as [->|A]; [rewrite N.pow2_bits_true, N.clearbit_eq, andb_false_r; reflexivity|]. rewrite (N.clearbit_neq _ 14) by congruence. rewrite (N.pow2_bits_false 14) by congruence.
  cbn [negb]. rewrite andb_true_r. destruct (N.eq_dec k 15) as [->|B]; [rewrite N.pow2_bits_true, N.clearbit_eq, andb_false_r; reflexivity|]. rewrite (N.clearbit_neq _ 15) by congruence. rewrite (N.pow2_bits_false 15) by congruence.
  apply andb_true_r.
Qed.
Lemma file_several : forall a, snd (step (in_file false a) DisableSolitary) = in_file true a.
Proof.
  intros a. cbn [step snd]. unfold in_file, with_options. cbn [a_options]. f_equal; apply N.bits_inj; intros k. unfold OPT_ARCHIVE. rewrite N.lor_spec.
  destruct (N.eq_dec k 14) as [->|A]; [rewrite N.pow2_bits_true, N.setbit_eq; apply orb_true_r|]. rewrite N.pow2_bits_false, (N.clearbit_neq _ 14), N.setbit_neq by congruence. apply orb_false_r.
Qed.
Lemma file_archive : forall s a, is_archive (in_file s a) = s.
Proof.
  intros s a. unfold is_archive, opt, in_file, B_ARCHIVE. destruct s; cbn [a_options with_options]; [apply N.setbit_eq|apply N.clearbit_eq].
Qed.
(** a unit that belongs to such settings *)
Lemma content_alike : forall a b u c, alike a b -> content a u c -> content b u c.
Proof.
  intros a b u c H (x & E & C). destruct (alike_fields _ _ H) as [N R]. exists x. split; [exact E|]. unfold selects_revision in *. rewrite <- N, <- R. exact C.
Qed.
Lemma unit_doc_alike : forall a b x d u c, alike a b -> unit_doc x d (a, u, c) = unit_doc x d (b, u, c).
Proof.
  intros a b x d u c H. destruct (alike_fields _ _ H) as [N R]. unfold unit_doc, all_namespaces, in_archive_args. cbn [fst snd]. rewrite N, R. reflexivity.
Qed.
Definition unit_alike (x y : archive * uobj * option bytes) : Prop := alike (fst (fst x)) (fst (fst y)) /\ snd (fst x) = snd (fst y) /\ snd x = snd y.
Lemma units_alike : forall a d xs ys, Forall2 unit_alike xs ys -> map (unit_doc a d) xs = map (unit_doc a d) ys.
Proof.
  intros a d xs ys F. induction F as [|x y xs ys (A & B & C) F IH]; [reflexivity|]. cbn [map]. rewrite IH. f_equal. destruct x as [[ua u] c], y as [[ub v] c']. cbn [fst snd] in *. subst. apply unit_doc_alike, A.
Qed.
Lemma flat_alike : forall a (f : bytes -> bytes) xs ys, Forall2 unit_alike xs ys -> flat_map (fun x => f (unit_doc a 1 x)) xs = flat_map (fun x => f (unit_doc a 1 x)) ys.
Proof.
  intros a f xs ys F. assert (E := units_alike a 1 _ _ F). clear F. revert ys E. induction xs as [|x xs IH]; intros [|y ys] E; try discriminate E; [reflexivity|]. cbn [map flat_map] in *. injection E as E1 E2.
  rewrite E1, (IH _ E2). reflexivity.
Qed.
Lemma document_alike : forall a xs ys, Forall2 unit_alike xs ys -> document true a xs = document true a ys.
Proof.
  intros a xs ys F. unfold document. destruct (is_archive a).
  - unfold archive_doc. rewrite (flat_alike a (fun d => [10; 10] ++ d) _ _ F). inversion F; subst; reflexivity.
  - inversion F as [|x y xs' ys' A F']; subst; [reflexivity|]. unfold solitary_doc. assert (E := units_alike a 0 _ _ (Forall2_cons _ _ A (Forall2_nil _))). cbn [map] in E. injection E as ->. reflexivity.
Qed.

(** ** The order of the calls *)
Definition is_set (o : fop) : bool := match o with FSet _ => true | _ => false end.
Definition others (t : list fop) : list fop := filter (fun o => negb (is_set o)) t.
Definition sets (t : list fop) : list call := flat_map (fun o => match o with FSet c => [c] | _ => [] end) t.
Definition calm (t : list fop) : Prop := Forall mild (sets t).
Fixpoint asked (m : cmode) (ps : list place) (qs : list creq) : list fop :=
  match ps, qs with p :: ps, q :: qs => file_request m p q ++ asked m ps qs | _, _ => [] end.
Lemma request_others : forall m p q, others (file_request m p q) = file_request m p q /\ sets (file_request m p q) = [].
Proof.
  assert (M : forall l, others (map FDo l) = map FDo l /\ sets (map FDo l) = []) by (induction l as [|o l [A B]]; (split; [|]); unfold others, sets in *; cbn [map filter flat_map is_set negb app]; congruence).
  intros m p q. destruct q as [w|r [u|]]; cbn [file_request]; try apply M. destruct (p_dir p), (p_name p); try (split; reflexivity). set (w := write_request _ _). destruct (M w) as [A B].
  unfold others, sets in *. cbn [filter is_set negb flat_map app]. rewrite filter_app, flat_map_app, A, B. split; reflexivity.
Qed.
Lemma woven_calls : forall m ms ps p t, woven m ms ps p t -> Forall mild_event ms -> sets p = [] -> calm t /\ others t = others p ++ asked m ps (scheduled ms) /\ length ps = length (scheduled ms).
Proof.
  intros m ms ps p t H. induction H as [|c ms ps p t H IH|q x ms ps p t H IH|o ms ps p t H IH]; intros M P.
  - repeat split. constructor.
  - inversion M as [|y l M1 M2]; subst. destruct (IH M2 P) as (A & B & C). split; [constructor; [exact M1|exact A]|]. split; [exact B|exact C].
  - inversion M as [|y l M1 M2]; subst. destruct (request_others m x q) as [R1 R2]. destruct (IH M2) as (A & B & C); [unfold sets in *; rewrite flat_map_app, P, R2; reflexivity|].
    split; [exact A|]. change (scheduled (MSchedule q :: ms)) with (q :: scheduled ms). cbn [asked length]. split; [rewrite B; unfold others in *; rewrite filter_app, R1, <- app_assoc; reflexivity|congruence].
  - assert (P' : sets p = [] /\ is_set o = false) by (unfold sets in P; cbn [flat_map] in P; destruct o; cbn [app] in P; try discriminate P; split; try reflexivity; exact P).
    destruct P' as [P1 P2]. destruct (IH M P1) as (A & B & C). split; [unfold calm, sets in *; cbn [flat_map]; rewrite Forall_app; split; [destruct o; try discriminate P2; constructor|exact A]|].
    unfold others in *. cbn [filter]. rewrite P2. cbn [negb app]. rewrite B. split; [reflexivity|exact C].
Qed.

(** ** The archive of a file *)
(** the output archive: never open *)
Definition idle (a : archive) (m : am) : Prop := alike (am_a m) a /\ am_attributes m = [].
Lemma idle_set : forall a m c, idle a m -> mild c -> exists r m', astep m (Setting c) = Ok (r, m') /\ idle a m'.
Proof.
  intros a m c [I1 I2] M. cbn [astep]. eexists _, _. split; [reflexivity|]. split; [|exact I2]. cbn [am_a]. unfold alike in *. rewrite <- I1. apply alike_mild, M.
Qed.
(** calls for a file, with the owners the units then have *)
Inductive acall (a : archive) : eop -> aop -> Prop :=
| ac_set c : acall a (ESet c) (Setting c)
| ac_unit b own u : alike b a -> acall a (EUnit (own, u)) (WriteUnit (Some (match own with Some ua => ua | None => b end, u)))
| ac_str s : acall a (EStr s) (raw s).
Lemma file_run : forall creates a ops t m k p rest, idle a m -> calm t -> others t = map FDo ops ++ FClose :: rest -> Forall (fun o => match o with EBad => False | _ => True end) ops ->
  exists cs t' m', Forall2 (acall a) ops cs /\ idle a m' /\ calm t' /\ others t' = rest /\
    frun creates m (Some (p, k)) t = obind (arun k (cs ++ [Close])) (fun r => obind (frun creates m' None t') (fun l => Ok (map (fun s => (p, s)) (am_files (archive_free (snd r))) ++ l))).
Proof.
  intros creates a. intros ops t. revert ops. induction t as [|o t IH]; intros ops m k p rest ID CA E G; [destruct ops; discriminate E|].
  destruct o as [c|q|o|].
  - inversion CA as [|x l C1 C2]; subst. destruct (idle_set a m c ID C1) as (r & m1 & S & ID'). destruct (IH ops m1 k p rest ID' C2 E G) as (cs & t' & m' & A1 & A2 & A3 & A4 & A5).
    exists cs, t', m'. split; [exact A1|]. split; [exact A2|]. split; [exact A3|]. split; [exact A4|]. cbn [frun]. rewrite S. cbn [obind snd]. exact A5.
  - destruct ops; discriminate E.
  - destruct ops as [|x ops]; [discriminate E|]. change (others (FDo o :: t)) with (FDo o :: others t) in E. cbn [map app] in E. injection E as -> E. inversion G as [|y l G1 G2]; subst.
    assert (CL : exists x', calls_of (am_a m) [x] = [x'] /\ acall a x x').
    { destruct x as [c|[own u]|s|]; [| | |destruct G1]; cbn [calls_of]; eexists; (split; [reflexivity|]); [constructor|constructor; apply ID|exact (ac_str a s)]. }
    destruct CL as (x' & CL & AC). cbn [frun]. rewrite CL. cbn [arun].
    destruct (astep k x') as [[r k1]|] eqn:ST.
    + cbn [obind fst snd]. destruct (IH ops m k1 p rest ID CA E G2) as (cs & t' & m' & A1 & A2 & A3 & A4 & A5).
      exists (x' :: cs), t', m'. split; [constructor; assumption|]. split; [exact A2|]. split; [exact A3|]. split; [exact A4|]. cbn [app arun]. rewrite ST. cbn [obind fst snd]. rewrite A5.
      destruct (arun k1 (cs ++ [Close])) as [q|]; reflexivity.
    + destruct (IH ops m k p rest ID CA E G2) as (cs & t' & m' & A1 & A2 & A3 & A4 & _).
      exists (x' :: cs), t', m'. split; [constructor; assumption|]. split; [exact A2|]. split; [exact A3|]. split; [exact A4|]. cbn [app arun]. rewrite ST. reflexivity.
  - destruct ops as [|x ops]; [|discriminate E]. change (others (FClose :: t)) with (FClose :: others t) in E. cbn [map app] in E. injection E as E.
    exists [], t, m. split; [constructor|]. split; [exact ID|]. split; [exact CA|]. split; [exact E|]. cbn [frun app arun]. destruct (astep k Close) as [q|]; reflexivity.
Qed.
