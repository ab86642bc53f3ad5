(** Concrete runs of --cat (C65). *)
From Verif Require Import Base Text_Model Text_Spec Api_Model Writer_Model Writer_Spec Writer_Proofs10 Archive_Model Archive_Spec Archive_Proofs4 Reuse_Model Cat_Model Cat_Spec.
Local Open Scope N_scope.

Definition sha : bytes := txt "da39a3ee5e6b4b0d3255bfef95601890afd80709".
Definition e0 : environment := Env (fun _ => true) (fun _ _ => txt "UTF-8") (fun _ => sha) (fun _ _ _ => []) (fun s => s).
Definition unit_of (a : archive) (hash : option bytes) (name text : bytes) : uobj :=
  match parse_unit (fun s => s) a (plain_unit name) 1 (Some (txt "UTF-8")) hash (flat_map tokens_of [TreeElem 0 (txt "decl") [] [] [TreeText text]; TreeText [10]]) with Ok (_, v) => wu v | UB => new_unit 0 end.
Definition source (a : archive) (hash : option bytes) (name text : bytes) : option csource := Some (CSource a (unit_of a hash name text) 1).
Definition out_file (cs : list call) : am := match arun new_am (OpenOutput true true :: map Setting cs) with Ok (_, m) => m | UB => new_am end.
Definition text_out (cs : list call) (us : list (option csource)) : option (list bytes) := match cat e0 (out_file cs) us with Ok (_, m) => Some (am_files m) | UB => None end.
Definition head_line : bytes := decl_line ++ txt "<unit xmlns=""http://www.srcML.org/srcML/src"" revision=""1.0.0"" language=""C"" filename=""a.c"">".
Definition two (cs : list call) (h : option bytes) : list (option csource) :=
  [source (run cs archive_create) h (txt "a.c") (txt "a<b"); None; source (run cs archive_create) h (txt "b.c") (txt "c")].
Lemma two_text : text_out [] (two [] (Some sha)) = Some [head_line ++ txt "<decl>a&lt;b</decl>" ++ [10] ++ txt "<decl>c</decl>" ++ [10] ++ txt "</unit>" ++ [10]].
Proof. vm_compute. reflexivity. Qed.
(** one file: its unit has no hash *)
Definition single : list call := [EnableSolitary; DisableHash].
Lemma single_text : text_out single [source (run single archive_create) None (txt "a.c") (txt "a<b")] =
  Some [decl_line ++ txt "<unit xmlns=""http://www.srcML.org/srcML/s><decl>a&lt;b</decl>" ++ [10] ++ txt "</unit>" ++ [10]].
Proof. vm_compute. reflexivity. Qed.
(** an attribute after the hash *)
Definition if0 : list call := [EnableOption (2 ^ 5)].
Lemma if0_text : text_out if0 (two if0 (Some sha)) =
  Some [decl_line ++ txt "<unit xmlns=""http://www.srcML.org/srcML/src"" revision=""1.0.0"" language=""C"" filename=""a.c"" hash=""da39a3ee5e6b4b0d32><decl>a&lt;b</decl>" ++ [10] ++
        txt "<decl>c</decl>" ++ [10] ++ txt "</unit>" ++ [10]].
Proof. vm_compute. reflexivity. Qed.
(** a prefix for the srcML namespace *)
Definition prefixed_ns : list call := [RegisterNamespace (Some (txt "s")) (Some SRC_URI)].
Lemma prefix_text : text_out prefixed_ns (two prefixed_ns (Some sha)) =
  Some [decl_line ++ txt "<s:unit xmlns:s=""http://www.srcML.org/srcML/src"" revision=""1.0.0"" language=""C"" filename=""a.c""><s:decl>a&lt;b</s:decl>" ++ [10] ++
        txt "<s:decl>c</s:decl>" ++ [10] ++ txt "</unit>" ++ [10]].
Proof. vm_compute. reflexivity. Qed.
(** a namespace that only a later source uses *)
Definition cpp_unit : uobj :=
  match parse_unit (fun s => s) archive_create (plain_unit (txt "b.c")) 1 (Some (txt "UTF-8")) (Some sha) (flat_map tokens_of [TreeElem 1 (txt "define") [] [] [TreeText (txt "#define")]]) with
  Ok (_, v) => wu v | UB => new_unit 0 end.
Lemma cpp_text : text_out [] [source archive_create (Some sha) (txt "a.c") (txt "a<b"); Some (CSource archive_create cpp_unit 1)] =
  Some [head_line ++ txt "<decl>a&lt;b</decl>" ++ [10] ++ txt "<cpp:define>#define</cpp:define>" ++ [10] ++ txt "</unit>" ++ [10]].
Proof. vm_compute. reflexivity. Qed.
Lemma none_text : text_out [] [None; None] = Some [txt "</unit>" ++ [10]].
Proof. vm_compute. reflexivity. Qed.
Lemma hex_digits : forall h, forallb (fun c => ((48 <=? c) && (c <=? 57)) || ((97 <=? c) && (c <=? 102))) h = true -> Forall (fun c => (48 <= c <= 57) \/ (97 <= c <= 102)) h.
Proof.
  intros h H. apply Forall_forall. intros c C. rewrite forallb_forall in H. specialize (H c C). apply orb_prop in H.
  destruct H as [H|H]; apply andb_prop in H; destruct H as [A B]; apply N.leb_le in A, B; [left|right]; split; assumption.
Qed.
Lemma two_hypotheses : exists m s, arun new_am [OpenOutput true true] = Ok ([ok], m) /\ opened m 0 false /\ first_of (two [] (Some sha)) = Some s /\ parseable e0 s /\ hash_last (am_a m) s /\
  Forall2 has_content (two [] (Some sha)) [txt "<decl>a&lt;b</decl>" ++ [10]; []; txt "<decl>c</decl>" ++ [10]].
Proof.
  eexists _, _. split; [reflexivity|]. split; [repeat split|]. split; [reflexivity|]. split; [|split].
  - split; [discriminate|]. split; [reflexivity|]. split; [reflexivity|]. split; [|reflexivity].
    split; [vm_compute; reflexivity|]. split; [split; [vm_compute; constructor|apply not_contains; [discriminate|vm_compute; reflexivity]]|].
    unfold clean_unit, clean_opt, clean, no_byte, clean_ns. vm_compute. repeat match goal with |- _ /\ _ => split | |- Forall _ _ => constructor | |- True => exact I | |- _ => discriminate end.
  - split; [|repeat split; vm_compute; reflexivity]. exists sha. split; [vm_compute; reflexivity|]. split; [reflexivity|].
    exact (hex_digits sha eq_refl).
  - constructor; [eexists; split; vm_compute; reflexivity|]. constructor; [reflexivity|]. constructor; [eexists; split; vm_compute; reflexivity|]. constructor.
Qed.
