(** Units that can be written, raw strings, and concrete archives (C23, C24, C34, C36). *)
From Verif Require Import Base Text_Model Text_Spec Text_Proofs Text_Proofs2 Text_Proofs3 Api_Model Api_Proofs Api_Proofs3 Writer_Model Writer_Spec Writer_Proofs Writer_Proofs2 Writer_Proofs3 Writer_Proofs4 Writer_Proofs7 Writer_Proofs8 Writer_Proofs9 Writer_Proofs10 Archive_Model Archive_Spec Archive_Proofs Archive_Proofs2 Archive_Proofs3.
Local Open Scope N_scope.

Lemma parsed_good : forall extract a u lang encoding hash ts,
  usable a (parse_start a (wu u) lang encoding) -> clean_opt hash -> Forall good_tree ts -> a_revision_number a = None ->
  exists v, parse_unit extract a u lang encoding hash (flat_map tokens_of ts) = Ok (ST_OK, v) /\
    good_unit (a, wu v, nonempty (flat_map (tree_xml (prefix_of a (parse_start a (wu u) lang encoding))) ts)).
Proof.
  intros extract a u lang encoding hash ts U H G R. destruct (parse_ok extract a u lang encoding hash ts U H G) as (v & E & S & C & I & B & SS & UV & l & N & SN & US).
  exists v. split; [exact E|]. split; cbn [fst snd]; [|exact B].
  exists (flat_map (tree_xml (prefix_of a (parse_start a (wu u) lang encoding))) ts). split.
  - destruct (parsed extract a u lang encoding hash ts U H G) as (v' & E' & _ & _ & IN & _). rewrite E in E'. injection E' as <-.
    rewrite IN. unfold forest_content. destruct ts; reflexivity.
  - unfold selects_revision. rewrite R. unfold nonempty. destruct (flat_map _ ts); reflexivity.
Qed.
(** raw strings *)
Lemma raw_step : forall m s, am_trans m = None -> forall id mem b, am_buf m = Buffer id mem b ->
  exists m', astep m (raw s) = Ok (RStatus ST_OK, m') /\ am_trans m' = None /\ am_buf m' = Buffer id mem (b ++ s) /\ am_raw m' = true /\
    am_memory m' = am_memory m /\ am_x m' = am_x m /\ am_files m' = am_files m /\ am_user m' = am_user m /\ am_type m' = am_type m.
Proof.
  intros m s T id mem b B. cbn [astep raw]. replace (Z.of_nat (length s) <? 0)%Z with false by (symmetry; apply Z.ltb_ge; lia).
  rewrite Z.ltb_irrefl, Nat2Z.id, firstn_all. unfold write_raw_string. rewrite B, T. cbn [obind]. eexists. split; [reflexivity|]. repeat split.
Qed.
Lemma raws : forall ss m id mem b, am_trans m = None -> am_raw m = true -> am_buf m = Buffer id mem b ->
  exists m', arun m (map raw ss) = Ok (oks (length ss), m') /\ am_trans m' = None /\ am_buf m' = Buffer id mem (b ++ concat ss) /\ am_raw m' = true /\
    am_memory m' = am_memory m /\ am_x m' = am_x m /\ am_files m' = am_files m /\ am_user m' = am_user m /\ am_type m' = am_type m.
Proof.
  induction ss as [|s ss IH]; intros m id mem b T R B.
  - exists m. cbn. rewrite app_nil_r. repeat split; assumption.
  - destruct (raw_step m s T id mem b B) as (m1 & E & T1 & B1 & R1 & M1 & X1 & F1 & U1 & Y1).
    destruct (IH m1 id mem _ T1 R1 B1) as (m2 & E2 & T2 & B2 & R2 & M2 & X2 & F2 & U2 & Y2).
    exists m2. cbn [map arun length]. rewrite E. cbn [obind fst snd]. rewrite E2. split; [reflexivity|]. split; [exact T2|].
    split; [rewrite B2; cbn [concat]; rewrite <- app_assoc; reflexivity|]. split; [exact R2|]. repeat split; etransitivity; eassumption.
Qed.
Lemma raw_document : forall m s ss id memory, opened m id memory ->
  exists m', arun m (map raw (s :: ss) ++ [Close]) = Ok (oks (S (length ss)) ++ [RVoid], m') /\ delivered m m' memory (concat (s :: ss)).
Proof.
  intros m s ss id memory (T & R & TY & B & X).
  destruct (raw_step m s T id memory [] B) as (m1 & E & T1 & B1 & R1 & M1 & X1 & F1 & U1 & Y1).
  destruct (raws ss m1 id memory _ T1 R1 B1) as (m2 & E2 & T2 & B2 & R2 & M2 & X2 & F2 & U2 & Y2).
  cbn [map app arun]. rewrite E. cbn [obind fst snd]. rewrite arun_app, E2. cbn [obind fst snd arun astep].
  unfold close.
  assert (EQ : (match am_type m2, am_raw m2, am_trans m2 with IO_WRITE, false, None => obind (create_trans m2) (fun t => Ok (set_trans m2 (am_buf m2) (Some t))) | _, _, _ => Ok m2 end) = Ok m2) by (rewrite R2; destruct (am_type m2); reflexivity).
  rewrite EQ. cbn [obind]. unfold close_trans. rewrite T2, R2, B2. cbn [obind]. unfold deliver. cbn [set_trans am_memory].
  rewrite M2, M1, X2, X1. destruct memory.
  - destruct X as [MM MX]. rewrite MM, MX, Nat.eqb_refl. cbn [andb am_x am_a am_attributes am_type am_buf am_trans am_raw am_next am_memory am_user am_files am_reader app].
    eexists. split; [reflexivity|]. split; [reflexivity|]. cbn [am_files]. rewrite F2, F1. reflexivity.
  - rewrite X. cbn [andb am_x am_a am_attributes am_type am_buf am_trans am_raw am_next am_memory am_user am_files am_reader app].
    eexists. split; [reflexivity|]. split; cbn [am_files am_user]; [rewrite F2, F1; reflexivity|rewrite U2, U1; reflexivity].
Qed.

(** ** Concrete units and archives *)
Definition parsed_in (a : archive) (ts : list tree) : uobj :=
  match parse_unit (fun s => s) a (plain_unit (txt "a.c")) 1 None None (flat_map tokens_of ts) with Ok (_, v) => wu v | UB => new_unit 0 end.
Definition sample : uobj := parsed_in archive_create [TreeElem 0 (txt "decl") [] [] [TreeText (txt "a<b")]].
Definition sample_call : aop := WriteUnit (Some (archive_create, sample)).
Definition ok : ares := RStatus ST_OK.
Definition decl_line : bytes := txt "<?xml version=""1.0"" encoding=""UTF-8"" standalone=""yes""?>" ++ [10].
Definition root : bytes := txt "<unit xmlns=""http://www.srcML.org/srcML/src"" revision=""1.0.0"">".
Lemma sample_good : good_unit (archive_create, sample, Some (txt "<decl>a&lt;b</decl>")).
Proof. split; [exists (txt "<decl>a&lt;b</decl>"); split; [vm_compute; reflexivity|vm_compute; reflexivity]|vm_compute; reflexivity]. Qed.
Lemma archive_text : user_of (arun new_am [OpenMemory true; sample_call; sample_call; Close]) = Some ([ok; ok; ok; RVoid], Some (Some (
  decl_line ++ root ++ [10; 10] ++ txt "<unit revision=""1.0.0"" language=""C"" filename=""a.c""><decl>a&lt;b</decl></unit>" ++ [10; 10] ++
  txt "<unit revision=""1.0.0"" language=""C"" filename=""a.c""><decl>a&lt;b</decl></unit>" ++ [10; 10] ++ txt "</unit>" ++ [10]))).
Proof. vm_compute. reflexivity. Qed.
Definition solitary_unit : bytes := txt "<unit xmlns=""http://www.srcML.org/srcML/src"" revision=""1.0.0"" language=""C"" filename=""a.c""><decl>a&lt;b</decl></unit>".
Lemma solitary_two : user_of (arun new_am [Setting EnableSolitary; OpenMemory true; sample_call; sample_call; Close]) =
  Some ([ok; ok; ok; ok; RVoid], Some (Some (decl_line ++ solitary_unit ++ solitary_unit ++ [10]))).
Proof. vm_compute. reflexivity. Qed.
Lemma solitary_none : user_of (arun new_am [Setting EnableSolitary; OpenMemory true; Close]) = Some ([ok; ok; RVoid], Some (Some decl_line)).
Proof. vm_compute. reflexivity. Qed.
Lemma string_unopened : user_of (arun new_am [OpenMemory true; Close]) =
    Some ([ok; RVoid], Some (Some (decl_line ++ txt "<unit xmlns=""http://www.srcML.org/srcML/src"" revision=""1.0.0""/>" ++ [10]))) /\
  user_of (arun new_am [raw (txt "x"); OpenMemory true; Close]) = Some ([ok; ok; RVoid], Some (Some [])).
Proof. split; vm_compute; reflexivity. Qed.
Lemma file_not_created : files_of (arun new_am [OpenOutput true false; sample_call; Close]) = Some ([ok; ok; RVoid], []).
Proof. vm_compute. reflexivity. Qed.
Lemma reopened : user_of (arun new_am [OpenMemory true; sample_call; Close; OpenMemory true; sample_call; Close]) = Some ([ok; ok; RVoid; ok; ok; RVoid], Some (Some [])).
Proof. vm_compute. reflexivity. Qed.
Lemma closed_twice : user_of (arun new_am [OpenMemory true; sample_call; Close; Close]) = Some ([ok; ok; RVoid; RVoid], Some None).
Proof. vm_compute. reflexivity. Qed.
Lemma mixed_close : arun new_am [OpenMemory true; sample_call; raw (txt "x"); Close] = UB.
Proof. vm_compute. reflexivity. Qed.
Lemma string_after_close : arun new_am [OpenMemory true; sample_call; Close; raw (txt "x")] = UB.
Proof. vm_compute. reflexivity. Qed.
Definition omp_archive : archive := run [RegisterNamespace (Some (txt "o")) (Some OPENMP_URI)] archive_create.
Lemma omp_undeclared : user_of (arun new_am [Setting (RegisterNamespace (Some (txt "o")) (Some OPENMP_URI)); OpenMemory true;
    WriteUnit (Some (omp_archive, parsed_in omp_archive [TreeElem 4 (txt "directive") [] [] []])); Close]) =
  Some ([ok; ok; ok; RVoid], Some (Some (decl_line ++ root ++ [10; 10] ++
    txt "<unit revision=""1.0.0"" language=""C"" filename=""a.c""><o:directive/></unit>" ++ [10; 10] ++ txt "</unit>" ++ [10]))).
Proof. vm_compute. reflexivity. Qed.
Definition src_archive : archive := run [RegisterNamespace (Some (txt "src")) (Some SRC_URI)] archive_create.
Lemma copied_undeclared : user_of (arun new_am [OpenMemory true; WriteUnit (Some (src_archive, parsed_in src_archive [TreeElem 0 (txt "decl") [] [] []])); Close]) =
  Some ([ok; ok; RVoid], Some (Some (decl_line ++ root ++ [10; 10] ++
    txt "<src:unit revision=""1.0.0"" language=""C"" filename=""a.c""><src:decl/></src:unit>" ++ [10; 10] ++ txt "</unit>" ++ [10]))).
Proof. vm_compute. reflexivity. Qed.

Lemma reopen_memory : forall h q cs us,
  unwritten IO_INVALID h -> Forall quiet q -> writing cs us -> Forall good_unit us ->
  exists rs m qs m', arun new_am (h ++ OpenMemory true :: q) = Ok (rs, m) /\ arun m (cs ++ [Close]) = Ok (qs ++ [RVoid], m') /\
    (is_archive (am_a m) = true -> am_user m' = Some (Some (archive_doc (am_a m) (am_attributes m) us))).
Proof.
  intros h q cs us U Q W G. destruct (documents h q true cs us U Q ltac:(discriminate) W G) as (rs & m & qs & m' & E1 & E2 & _ & _ & D).
  exists rs, m, qs, m'. split; [exact E1|]. split; [exact E2|]. intros A. cbv zeta in D. rewrite A in D. apply D.
Qed.
