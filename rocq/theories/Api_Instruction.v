(** The processing instruction of an archive (C17). *)
From Verif Require Import Base Text_Model Api_Model.
Local Open Scope N_scope.

(** srcml_archive.cpp:764-767 [srcml_archive_get_processing_instruction_target] *)
Definition pi_target (a : archive) : option bytes := match a_pi a with Some p => Some (fst p) | None => None end.
(** srcml_archive.cpp:775-778 [srcml_archive_get_processing_instruction_data] *)
Definition pi_data (a : archive) : option bytes := match a_pi a with Some p => Some (snd p) | None => None end.
(** it reads back as set, until it is set again, and nothing else changes *)
Lemma pi_set : forall a t d, exists a', set_processing_instruction a (Some t) (Some d) = Ok (ST_OK, a') /\ pi_target a' = Some t /\ pi_data a' = Some d /\
  (forall k, get_attr a' k = get_attr a k) /\ a_options a' = a_options a /\ a_tabstop a' = a_tabstop a /\ a_namespaces a' = a_namespaces a /\
  a_extensions a' = a_extensions a /\ a_macros a' = a_macros a /\ get_revision a' = get_revision a.
Proof. intros a t d. eexists. split; [reflexivity|]. repeat split. Qed.
Lemma pi_kept : forall a c, pi_target (snd (step a c)) = pi_target a /\ pi_data (snd (step a c)) = pi_data a.
Proof.
  intros a c. assert (E : a_pi (snd (step a c)) = a_pi a); [|unfold pi_target, pi_data; rewrite E; split; reflexivity].
  destruct c; cbn [step]; unfold set_attr, register_namespace, register_macro; cbv zeta; repeat match goal with |- context [match ?x with _ => _ end] => destruct x end; try reflexivity.
Qed.
