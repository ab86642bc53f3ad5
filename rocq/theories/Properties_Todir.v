(** One srcML file for each source: --to-dir (C62). *)
From Verif Require Import Base Text_Model Text_Spec Api_Model Api_Spec Writer_Model Writer_Spec Archive_Model Archive_Spec Archive_Proofs4 Input_Model Create_Model Create_Spec Create_Examples
  Todir_Model Todir_Spec Todir_Proofs3 Todir_Examples Archive_Nowhere.
Local Open Scope N_scope.

(** Whatever the order of the calls of the threads, and whichever files can be created, the files written are those of the sources, in order: each
    has the name directory/filename.xml and holds the document of its source alone, with the settings asked for. *)
Theorem C62_files : forall r ins ps, no_srcml ins -> (exists t, starts_files r ins ps t) ->
  exists a, requested r ins a /\ forall creates t l, starts_files r ins ps t -> files creates (c_mode r) a (all_sources ins) ps l ->
    makes creates r ins ps t l /\ forall l', makes creates r ins ps t l' -> l' = l.
Proof. exact made_files. Qed.
Print Assumptions C62_files.
(** Every source that can be written has its file, whatever becomes of the others. *)
Theorem C62_each : forall creates m a qs1 ps1 q d n qs2 ps2 l, length qs1 = length ps1 ->
  files creates m a (qs1 ++ q :: qs2) (ps1 ++ At (Some d) (Some n) :: ps2) l -> has_unit q = true -> units_of q <> [] \/ scalar q = true -> creates (d ++ txt "/" ++ n ++ txt ".xml") = true ->
  exists s l1 l2, l = l1 ++ (d ++ txt "/" ++ n ++ txt ".xml", s) :: l2 /\ file_of m a q s /\ files creates m a qs1 ps1 l1 /\ files creates m a qs2 ps2 l2.
Proof. exact files_split. Qed.
Print Assumptions C62_each.
(** No other file is written. *)
Theorem C62_names : forall creates m a qs ps l, files creates m a qs ps l -> forall p s, In (p, s) l ->
  exists q d n, In q qs /\ In (At (Some d) (Some n)) ps /\ p = d ++ txt "/" ++ n ++ txt ".xml" /\ file_of m a q s.
Proof. exact names_of. Qed.
Print Assumptions C62_names.
(** At the end a file holds what was written last to it, so with different names every source can be read back. *)
Theorem C62_kept : (forall l p s, NoDup (map fst l) -> In (p, s) l -> file_at p l = Some s) /\
  (forall p s l1 l2, ~ In p (map fst l2) -> file_at p (l1 ++ (p, s) :: l2) = Some s) /\ (forall p l, ~ In p (map fst l) -> file_at p l = None).
Proof. exact (conj file_at_each (conj file_at_last file_at_no)). Qed.
Print Assumptions C62_kept.
(** But of two sources with one name the first is lost, *)
Theorem C62_overwritten_refuted : exists ps l, no_srcml same /\ starts_files (req false) same ps same_calls /\ makes (fun _ => true) (req false) same ps same_calls l /\
  l = [(txt "out/a.c.xml", sol_text); (txt "out/a.c.xml", sol_text2)] /\ file_at (txt "out/a.c.xml") l = Some sol_text2.
Proof. exact same_lost. Qed.
Print Assumptions C62_overwritten_refuted.
(** a source without a name (--text or standard input without --filename) is undefined behaviour, *)
Theorem C62_no_name_refuted : starts_files (req false) one [At (Some out) None] [FDo EBad] /\ forall l, ~ makes (fun _ => true) (req false) one [At (Some out) None] [FDo EBad] l.
Proof. exact nameless. Qed.
Print Assumptions C62_no_name_refuted.
(** so is a unit of an archive, *)
Theorem C62_archive_refuted : exists t, starts_files (req true) split_up [At None None] t /\ forall l, ~ makes (fun _ => true) (req true) split_up [At None None] t l.
Proof. exact not_split. Qed.
Print Assumptions C62_archive_refuted.
(** and the hash of a source, which the files are not to have, is in them as soon as there are two inputs. *)
Theorem C62_hash_refuted : exists u1 u2 t1 t2, u1 = parsed_for (req false) [input_with u1] /\ u2 = parsed_for (req false) [input_with u2; input_with u2] /\
  starts_files (req false) [input_with u1] [named (txt "a.c")] t1 /\ makes (fun _ => true) (req false) [input_with u1] [named (txt "a.c")] t1 [(txt "out/a.c.xml", sol_text)] /\
  starts_files (req false) [input_with u2; input_with u2] [named (txt "a.c"); named (txt "b.c")] t2 /\
  makes (fun _ => true) (req false) [input_with u2; input_with u2] [named (txt "a.c"); named (txt "b.c")] t2 [(txt "out/a.c.xml", hash_text); (txt "out/b.c.xml", hash_text)].
Proof. exact hash_shown. Qed.
Print Assumptions C62_hash_refuted.
Example C62_example : no_srcml two /\ starts_files (req false) two both_places both_calls /\ file_of Plain archive_create parsed1 sol_text /\
  files (fun _ => true) Plain archive_create (all_sources two) both_places [(txt "out/a.c.xml", sol_text); (txt "out/d/b.c.xml", sol_text)] /\
  makes (fun _ => true) (req false) two both_places both_calls [(txt "out/a.c.xml", sol_text); (txt "out/d/b.c.xml", sol_text)] /\
  makes (fun p => negb (beqb p (txt "out/a.c.xml"))) (req false) two both_places both_calls [(txt "out/d/b.c.xml", sol_text)].
Proof.
  split; [exact both_no_srcml|]. split; [exact both_start|]. split; [exact file_of_sample|]. split; [|exact both_made].
  exact (files_one _ _ _ parsed1 _ _ _ _ _ _ eq_refl file_of_sample (files_one _ _ _ parsed1 _ _ _ _ _ _ eq_refl file_of_sample (files_nil _ _ _))).
Qed.

(** ** C24: outputs and inputs that are not there *)
(** In an archive without a translator (none was made yet: see C36 for a second opening), after an output that could not be created, settings and writes change no file that was
    written before and make none. *)
Theorem C24_not_created : forall m cs, am_trans m = None -> Forall ok_call cs ->
  exists rs m', arun m (OpenOutput true false :: cs ++ [Close]) = Ok (rs, m') /\ am_files m' = am_files m.
Proof. exact not_created. Qed.
Print Assumptions C24_not_created.
(** A missing input is reported, and the archive stays as it was. *)
Theorem C24_missing_input : forall m args, astep m (OpenRead args None) = Ok (RStatus (if args then ST_IO_ERROR else ST_INVALID_ARGUMENT), m).
Proof. intros m args. destruct args; reflexivity. Qed.
Print Assumptions C24_missing_input.
(** an archive whose document was written, and one whose output could not be created *)
Example C24_not_created_example : exists m, arun new_am [OpenOutput true true; WriteUnit (Some (archive_create, sample)); Close] = Ok ([RStatus ST_OK; RStatus ST_OK; RVoid], m) /\ length (am_files m) = 1%nat /\
  exists rs m', arun new_am (OpenOutput true false :: [WriteString (Some (txt "a")) 1; Setting EnableSolitary; WriteUnit (Some (archive_create, sample))] ++ [Close]) = Ok (rs, m') /\ am_files m' = [].
Proof. eexists. split; [vm_compute; reflexivity|]. split; [vm_compute; reflexivity|]. eexists _, _. split; vm_compute; reflexivity. Qed.
