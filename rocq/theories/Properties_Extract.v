(** Extracting source code (C56). *)
From Verif Require Import Base Text_Model Text_Spec Api_Model Writer_Model Input_Model Extract_Model Extract_Spec Extract_Proofs Extract_Examples.

(** To standard output: the source of every unit, in order, with a NUL between each two, with the line ends and the encoding asked for. *)
Theorem C56_stdout : forall x l, x_unit x = 0%Z -> snd (to_fd x 1 l) = Goes /\
  exists texts, Forall2 (asked x (or_auto (x_eol x)) (x_encoding x)) l texts /\ separated (written 1 (fst (to_fd x 1 l))) texts.
Proof. exact stdout_all. Qed.
Print Assumptions C56_stdout.
(** From which the sources without NUL are found again. *)
Theorem C56_split : forall out l, separated out l -> forall l', separated out l' -> l <> [] -> l' <> [] -> Forall (no_byte 0) l -> Forall (no_byte 0) l' -> l = l'.
Proof. exact separated_unique. Qed.
Print Assumptions C56_split.
(** --unit n: that unit alone, or nothing and an error. *)
Theorem C56_unit : forall x n l, x_unit x = Z.of_nat (S n) ->
  match nth_error l n with
  | Some u => exists t, asked x (or_auto (x_eol x)) (x_encoding x) u t /\ forall fd, to_fd x fd l = ([(fd, t)], Goes)
  | None => forall fd, to_fd x fd l = ([], Exits)
  end.
Proof. exact stdout_unit. Qed.
Print Assumptions C56_unit.
(** To a file: the unit asked for, or the first. *)
Theorem C56_file : forall x n l, (x_unit x = Z.of_nat (S n) \/ x_unit x = 0%Z /\ n = 0%nat) ->
  match nth_error l n with
  | Some u => exists t, asked x (or_auto (x_eol x)) (x_encoding x) u t /\ to_file x l = Some t
  | None => to_file x l = None
  end.
Proof. exact file_unit. Qed.
Print Assumptions C56_file.
(** To a directory: the file of each name has the source of the last unit with that name, whatever the inputs; *)
Theorem C56_directory : forall x dir inputs a u n b, concat inputs = a ++ u :: b -> su_name u = Some n -> (forall v, In v b -> su_name v <> Some n) ->
  exists c, asked x EOL_AUTO None u c /\ file_at (output_file dir n) (to_directories x dir inputs) c.
Proof. exact directory_files. Qed.
Print Assumptions C56_directory.
(** no other file is written; *)
Theorem C56_directory_only : forall x dir inputs f c, file_at f (to_directories x dir inputs) c ->
  exists u n, In u (concat inputs) /\ su_name u = Some n /\ f = output_file dir n /\ asked x EOL_AUTO None u c.
Proof. exact directory_only. Qed.
Print Assumptions C56_directory_only.
(** and the directory of each file is made before it. *)
Theorem C56_directory_made : forall x dir inputs a p f c b, to_directories x dir inputs = a ++ (p, f, c) :: b -> exists n, f = output_file dir n /\ p = output_path dir n.
Proof. exact directory_made. Qed.
Print Assumptions C56_directory_made.
(** To an archive: an entry for each unit, in order, named by the unit, or by its number and language. *)
Theorem C56_archive : forall x inputs, Forall (Forall (fun u => su_name u = None \/ su_name u = Some [] -> su_language u <> None)) inputs ->
  Forall (fun l => (N.of_nat (length l) < 10 ^ 64)%N) inputs ->
  exists ess, to_libarchive x inputs = Ok (concat ess) /\ Forall2 (numbered (archived x) 1) inputs ess.
Proof. exact libarchive_entries. Qed.
Print Assumptions C56_archive.
Theorem C56_made_up_names : forall n m u v f, (su_name u = None \/ su_name u = Some []) -> (su_name v = None \/ su_name v = Some []) -> named n u f -> named m v f -> n = m.
Proof. exact unnamed_distinct. Qed.
Print Assumptions C56_made_up_names.
(** But the numbers start again with each input. *)
Theorem C56_names_refuted : exists a, to_libarchive plain [[un]; [un]] = Ok [(txt "srcml_unit_1.c", a); (txt "srcml_unit_1.c", a)].
Proof. exact (ex_intro _ _ two_archives). Qed.
Print Assumptions C56_names_refuted.
(** A unit without name and language stops it. *)
Theorem C56_no_language_refuted : forall x l r, to_libarchive x ((l ++ [SUnit None None None []]) :: r) = UB.
Proof. exact no_language. Qed.
Print Assumptions C56_no_language_refuted.
(** To a directory --unit, --eol and --src-encoding are without effect. *)
Theorem C56_directory_options_refuted : forall x y dir inputs, x_encode x = x_encode y -> to_directories x dir inputs = to_directories y dir inputs.
Proof. exact directory_ignores. Qed.
Print Assumptions C56_directory_options_refuted.
(** and units without a name are left out. *)
Theorem C56_directory_unnamed_refuted : forall x dir l, to_directory x dir (filter (fun u => match su_name u with Some _ => true | None => false end) l) = to_directory x dir l.
Proof. exact directory_unnamed. Qed.
Print Assumptions C56_directory_unnamed_refuted.
(** To a file without --unit all units after the first are lost. *)
Theorem C56_file_refuted : forall x u l, x_unit x = 0%Z -> to_file x (u :: l) = to_file x [u].
Proof. exact only_first. Qed.
Print Assumptions C56_file_refuted.
(** Before a further step the separators go to standard output instead. *)
Theorem C56_separator_refuted : written 5 (fst (to_fd plain 5 [ua; ub])) = txt "a;" ++ [10%N] ++ txt "b;" ++ [10%N] /\ written 1 (fst (to_fd plain 5 [ua; ub])) = [0%N].
Proof. exact separator_elsewhere. Qed.
Print Assumptions C56_separator_refuted.
(** A negative unit is the first. *)
Theorem C56_negative_refuted : to_fd (nth_of (-3)) 1 [ua; ub] = ([(1%Z, txt "a;" ++ [10%N])], Goes).
Proof. exact negative_unit. Qed.
Print Assumptions C56_negative_refuted.
Example C56_example : to_fd plain 1 [ua; ub] = ([(1%Z, txt "a;" ++ [10%N]); (1%Z, [0%N]); (1%Z, txt "b;" ++ [10%N])], Goes) /\
  to_fd (nth_of 2) 1 [ua; ub] = ([(1%Z, txt "b;" ++ [10%N])], Goes) /\ to_fd (nth_of 3) 1 [ua; ub] = ([], Exits) /\
  to_directories plain (txt "out") [[ua; un]; [ub]] = [(txt "out/", txt "out/a.c", txt "a;" ++ [10%N]); (txt "out/lib", txt "out/lib/b.cpp", txt "b;" ++ [10%N])] /\
  to_libarchive plain [[ua; un]; [ub]] = Ok [(txt "a.c", txt "a;" ++ [10%N]); (txt "srcml_unit_2.c", txt "n;" ++ [10%N]); (txt "lib/b.cpp", txt "b;" ++ [10%N])] /\
  separated (txt "a;" ++ 0%N :: txt "b;") [txt "a;"; txt "b;"].
Proof. repeat split; try reflexivity. apply SMore. apply SOne. Qed.
