(** C66: the log of --verbose. *)
From Verif Require Import Base Text_Spec Ptest_Model Ptest_Format Trace_Model Trace_Spec Trace_Proofs.
Local Open Scope N_scope.

(** A conversion with --verbose: one line for each file that is no error, in order. A parsed file is numbered and has its language, its lines of
    code, its hash and its name; a file without a language has its name (with --quiet it is only counted). *)
Theorem C66_create : forall quiet rs, exists l, log_for l (create_log true quiet rs) /\ Forall2 (describes quiet) (no_errors rs) l.
Proof. exact create_describes. Qed.
(** The last line counts the parsed files and the files without a language; no other file is counted. *)
Theorem C66_create_counts_partial : forall quiet rs,
  counts_in (create_log true quiet rs) (N.of_nat (parsed rs)) (N.of_nat (without_language rs)) 0 (N.of_nat (parsed rs + without_language rs)).
Proof. exact create_counts. Qed.
(** An error is not in the numbers: with a file that failed the last line has no errors, and one file too few. *)
Theorem C66_errors_refuted : exists rs, In (Some Failed) rs /\ length rs = 2%nat /\ counts_in (create_log true false rs) 1 0 0 1.
Proof.
  exists [Some Failed; Some (Parsed (txt "C++") 7 None (Some (txt "a.cpp")))]. split; [left; reflexivity|]. split; [reflexivity|].
  exact (C66_create_counts_partial false [Some Failed; Some (Parsed (txt "C++") 7 None (Some (txt "a.cpp")))]).
Qed.
(** Without --verbose there is no log. *)
Theorem C66_off : (forall quiet rs, create_log false quiet rs = []) /\ (forall d az, extract_log false d az = []).
Proof. exact (conj create_log_off extract_log_off). Qed.
(** An extraction of archives that have fewer than 45 files each: one numbered line for each file, with its place, in order. *)
Theorem C66_extract_partial : forall d az, Forall (fun us => (length (names us) < 45)%nat) az ->
  log_for (map (fun f => Source (place d f)) (flat_map names az)) (extract_log true d az).
Proof. exact extract_places. Qed.
(** In general, of the files of each archive the 45th and every 256th after it are counted as other files. *)
Theorem C66_extract_counts : forall d az,
  counts_in (extract_log true d az) (N.of_nat (length (flat_map names az) - list_sum (map (fun us => (length (names us) + 211) / 256)%nat az)))
    (N.of_nat (list_sum (map (fun us => (length (names us) + 211) / 256)%nat az))) 0 (N.of_nat (length (flat_map names az))).
Proof. exact extract_counts. Qed.
(** So with 45 files one is counted as no source. *)
Theorem C66_extract_refuted : exists us, length (names us) = 45%nat /\ forall d, counts_in (extract_log true d [us]) 44 1 0 45.
Proof.
  exists (repeat (Some (txt "a.cpp")) 45). split; [reflexivity|]. exact (fun d => C66_extract_counts d [repeat (Some (txt "a.cpp")) 45]).
Qed.

(** Examples. *)
Example C66_example_create :
  create_log true false [Some (Parsed (txt "C++") 7 None (Some (txt "a.cpp"))); Some (NoLanguage (Some (txt "b.txt"))); Some (Parsed (txt "Java") 123 (Some (txt "f00")) None)] =
  txt "    1 C++      7 a.cpp" ++ [10] ++ txt "    -                                                     b.txt" ++ [10] ++ txt "    2 Java   123 f00" ++ [10] ++
  [10] ++ txt "Source Files: 2" ++ [9] ++ txt "Other Files: 1" ++ [9] ++ txt "Errors: 0" ++ [9] ++ txt "Total Files: 3" ++ [10].
Proof. vm_compute. reflexivity. Qed.
Example C66_example_extract :
  extract_log true (txt "out") [[Some (txt "a.cpp"); None; Some (txt "d/b.c")]; [Some (txt "c.java")]] =
  txt "    1 out/a.cpp" ++ [10] ++ txt "    2 out/d/b.c" ++ [10] ++ txt "    3 out/c.java" ++ [10] ++
  [10] ++ txt "Source Files: 3" ++ [9] ++ txt "Other Files: 0" ++ [9] ++ txt "Errors: 0" ++ [9] ++ txt "Total Files: 3" ++ [10].
Proof. vm_compute. reflexivity. Qed.
