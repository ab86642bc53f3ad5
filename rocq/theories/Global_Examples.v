(** Examples for srcml(), and what does not hold. *)
From Verif Require Import Base Text_Model Text_Spec Text_Proofs Api_Model Api_Spec Api_Proofs Api_Proofs2 Writer_Model Writer_Spec Archive_Model Archive_Spec Root_Proofs8 Source_Model Source_Spec Whole_Spec Whole_Examples
  Handoff_Model Handoff_Spec Sax_Model Sax_Spec Back_Spec Reuse_Model Create_Model Global_Model Global_Spec Global_Settings Global_Direction Global_Source Global_Written Global_Round.
From Verif Require Properties_Api.
Local Open Scope N_scope.

Lemma dotted : forall base ext, no_byte 46 ext -> (forall s, s <> [] -> base ++ [46] ++ ext <> s ++ txt ".gz") -> extension_of (base ++ [46] ++ ext) ext.
Proof. intros base ext N Z. exists (base ++ [46] ++ ext), base. split; [right; split; [reflexivity|exact Z]|]. split; [reflexivity|exact N]. Qed.
Lemma not_gz : forall t, nth 0 (rev t) 0 <> 122 -> forall s, s <> [] -> t <> s ++ txt ".gz".
Proof. intros t L s _ E. apply L. rewrite E, rev_app_distr. reflexivity. Qed.
(** a world in which the parser delivers [small] for every file *)
Definition world (creates : bool) : system :=
  System (Env (fun _ => true) (fun _ _ => txt "UTF-8") (fun _ => txt "da39") (fun _ _ _ => flat_map tokens_of small) (fun s => s))
         (fun n => if bytes_dec n (txt "a.c") then Some [97; 60; 98; 12; 10] else None) (fun _ => creates)
         (fun _ => Some (Handoff_Model.RUnit (Some []) (Some (UBody [] [97; 10] 1 (O, O) (O, O))))) (fun _ s => s).
Definition settings : list gcall := [GAttr ALanguage (Some (txt "C++")); GTabstop 4; GEnable 4; GFilename (Some (txt "b.c")); GExtension (Some (txt "h")) (Some (txt "C++"))].
Lemma named_c : named_language settings (txt "a.c") (Some (txt "C")).
Proof. left. exists (txt "c"). split; [apply (dotted (txt "a") (txt "c")); [repeat constructor; discriminate|apply not_gz; vm_compute; discriminate]|vm_compute; reflexivity]. Qed.
Lemma named_xml : forall h, h = [] \/ h = [GEol 3] -> named_language h (txt "a.xml") None.
Proof. intros h H. left. exists (txt "xml"). split; [apply (dotted (txt "a") (txt "xml")); [repeat constructor; discriminate|apply not_gz; vm_compute; discriminate]|]. destruct H as [-> | ->]; vm_compute; reflexivity. Qed.
Lemma settings_ordinary : Forall ordinary settings.
Proof. repeat (apply Forall_cons; [cbn; try exact Logic.I; try (apply chars_b_ok; vm_compute; reflexivity); try (vm_compute; reflexivity)|]). apply Forall_nil. Qed.
Lemma world_parses : forall c, parses (world c) settings (used_language settings (txt "C")) [97; 60; 98; 12; 10] small.
Proof. intros c. split; [intros x E; vm_compute in E; discriminate E|]. split; [apply chars_b_ok; vm_compute; reflexivity|]. split; [apply chars_b_ok; vm_compute; reflexivity|reflexivity]. Qed.
Lemma small_names : lone_names small.
Proof. split; [intros J; vm_compute in J; repeat (destruct J as [J|J]; [discriminate J|]); destruct J|vm_compute; discriminate]. Qed.

(** ** What does not hold *)
(** srcml_set_eol is ignored *)
Lemma eol_ignored : exists rs g, grun initial [GEol 3] = Ok (rs, g) /\ u_eol (g_unit g) = 3 /\ srcml (world true) g (Some (txt "a.xml")) (Some (txt "a.c")) = Ok (ST_OK, g, Some [97; 10]).
Proof. eexists _, _. split; [vm_compute; reflexivity|]. split; [reflexivity|]. vm_compute. reflexivity. Qed.
(** a language that is set does not help a file whose name has none *)
Lemma language_ignored : exists rs g e, grun initial [GAttr ALanguage (Some (txt "C"))] = Ok (rs, g) /\ In (txt "C") languages /\
  srcml (world true) g (Some (txt "a.txt")) (Some (txt "a.xml")) = Ok (ST_INVALID_INPUT, Globals (g_archive g) (g_unit g) e, None) /\ e = txt "Language 'C' is not supported.".
Proof. eexists _, _, _. split; [vm_compute; reflexivity|]. split; [vm_compute; auto 9|]. split; vm_compute; reflexivity. Qed.
(** an output that cannot be created is no error *)
Lemma nothing_created : exists rs g, grun initial [] = Ok (rs, g) /\ s_creates (world false) (txt "a.xml") = false /\ srcml (world false) g (Some (txt "a.c")) (Some (txt "a.xml")) = Ok (ST_OK, g, None).
Proof.
  exists [], initial. split; [reflexivity|]. split; [reflexivity|]. 
  assert (X : exists v, parse_filename (world false) (lone_archive initial) (source_unit initial (lone_archive initial) (txt "a.c")) (txt "a.c") = Ok (ST_OK, v) /\ uo_read_body (wu v) = true) by (eexists; split; [vm_compute; reflexivity|reflexivity]).
  destruct X as (v & X & RB). assert (D : srcml (world false) initial (Some (txt "a.c")) (Some (txt "a.xml")) = to_srcml (world false) initial (txt "a.c") (txt "a.xml")).
  { destruct (direction (world false) [] [] initial (txt "a.c") (txt "a.xml") (Some (txt "C")) eq_refl) as (D & _); [|apply D; discriminate].
    left. exists (txt "c"). split; [apply (dotted (txt "a") (txt "c")); [repeat constructor; discriminate|apply not_gz; vm_compute; discriminate]|vm_compute; reflexivity]. }
  rewrite D, to_srcml_is. cbv zeta. rewrite X. cbn [obind fst snd is_ok world s_creates].
  assert (W : exists r, obind (Archive_Model.write_unit (ready_am (lone_archive initial) false) (lone_archive initial) (wu v)) (fun w => finish initial (match fst w with RStatus s => s | _ => ST_OK end) (snd w)) = Ok (ST_OK, initial, r)).
  { vm_compute in X. injection X as <-. eexists. vm_compute. reflexivity. }
  destruct W as (r & W). rewrite W. assert (N := not_created (world false) initial (txt "a.c") (txt "a.xml") ST_OK initial r eq_refl). rewrite to_srcml_is in N. cbv zeta in N. rewrite X in N. cbn [obind fst snd is_ok world s_creates] in N. rewrite (N W). reflexivity.
Qed.
(** a document without a unit is no error either, and no output is created *)
Lemma nothing_read : exists sys, s_reader sys (txt "a.xml") = Some RNull /\ s_creates sys (txt "a.c") = true /\ srcml sys initial (Some (txt "a.xml")) (Some (txt "a.c")) = Ok (ST_OK, initial, None).
Proof. exists (System (s_env (world true)) (fun _ => None) (fun _ => true) (fun _ => Some RNull) (fun _ s => s)). split; [reflexivity|]. split; [reflexivity|]. vm_compute. reflexivity. Qed.
(** a file called srcml: the name is read before its beginning *)
Lemma outside_name : forall sys h rs g output, grun initial h = Ok (rs, g) -> srcml sys g (Some (txt "srcml")) (Some output) = UB.
Proof.
  intros sys h rs g output G. unfold srcml.
  assert (NL : named_language h (txt "srcml") None).
  { right. split; [|reflexivity]. intros ext (stem & base & [(E & _)|(E & _)] & S & _).
    - apply (f_equal (@rev N)) in E. rewrite rev_app_distr in E. discriminate E.
    - rewrite S in E. assert (I : In 46 (txt "srcml")) by (rewrite E; apply in_or_app; right; left; reflexivity). vm_compute in I. repeat (destruct I as [I|I]; [discriminate I|]). destruct I. }
  rewrite (named_is _ _ _ _ _ G NL). cbn [obind]. rewrite name_outside; [reflexivity|]. repeat (constructor; [left; reflexivity|]). constructor.
Qed.
(** a file that cannot be read: the output is overwritten all the same *)
Lemma overwritten : exists w, s_file (world true) (txt "b.c") = None /\ srcml (world true) initial (Some (txt "b.c")) (Some (txt "a.xml")) = Ok (ST_IO_ERROR, initial, Some w) /\ w <> [].
Proof. eexists. split; [vm_compute; reflexivity|]. split; [vm_compute; reflexivity|discriminate]. Qed.
