(** What is written does not depend on the registry of the archive. *)
From Verif Require Import Base Text_Model Text_Spec Text_Proofs Api_Model Api_Spec Writer_Model Writer_Spec Archive_Model Archive_Spec Reuse_Model Global_Model Global_Spec Global_Settings.
Local Open Scope N_scope.

Ltac projections := unfold outfit; cbn [with_pi with_extensions a_src_encoding a_encoding a_language a_url a_version a_revision a_options a_tabstop a_namespaces a_pi a_extensions a_macros a_revision_number].
Lemma start_same : forall b r p u, write_start_unit (outfit b r p) u = write_start_unit b u.
Proof. intros. unfold write_start_unit, start_args. cbv zeta. projections. reflexivity. Qed.
Lemma end_same : forall x b r p u, write_end_unit x (outfit b r p) u = write_end_unit x b u.
Proof. intros. unfold write_end_unit. destruct (wu_trans u) as [t|]; [|reflexivity]. destruct (t_depth t <? 0)%Z; [reflexivity|]. cbv zeta. rewrite start_same. reflexivity. Qed.
Lemma obind_ext : forall {A B} (x : outcome A) (f g : A -> outcome B), (forall y, f y = g y) -> obind x f = obind x g.
Proof. intros A B [y|] f g E; [apply E|reflexivity]. Qed.
Lemma parse_same : forall x b r p u l e h t, parse_unit x (outfit b r p) u l e h t = parse_unit x b u l e h t.
Proof.
  intros. unfold parse_unit. cbv zeta. change (a_url (outfit b r p)) with (a_url b). rewrite start_same. apply obind_ext. intros y. destruct (wu_trans (snd y)); [|reflexivity]. apply end_same.
Qed.
Lemma uparse_same : forall e b r p u l s, unit_parse e (outfit b r p) u l s = unit_parse e b u l s.
Proof. intros. unfold unit_parse. cbv zeta. destruct (l =? 0); [reflexivity|]. change (a_src_encoding (outfit b r p)) with (a_src_encoding b). change (a_options (outfit b r p)) with (a_options b).
  match goal with |- (if ?c then _ else _) = _ => destruct c; [reflexivity|] end. destruct s as [s|]; [|reflexivity]. apply parse_same. Qed.
Lemma doc_same : forall b r v c, a_pi b = None -> solitary_doc (outfit b r None) (outfit b r None, v, c) = solitary_doc b (b, v, c).
Proof.
  intros b r v c P. unfold solitary_doc, instruction, xml_declaration, unit_doc, in_archive_args, all_namespaces, is_archive, tag_settings. rewrite P. cbn [fst snd]. projections. reflexivity.
Qed.
Lemma good_same : forall b r p v c, good_unit (b, v, c) -> good_unit (outfit b r p, v, c).
Proof. intros b r p v c G. exact G. Qed.
