(** Documents that are not XML, or not what was meant. *)
From Verif Require Import Base Text_Model Text_Spec Text_Proofs Text_Proofs3 Api_Model Api_Spec Writer_Model Writer_Spec Archive_Model Archive_Spec Root_Model Root_Spec Root_Proofs Root_Proofs5 Root_Proofs8 Source_Model Source_Spec Source_Proofs Source_Proofs4 Source_Examples Declared_Spec Whole_Spec Whole_Archive Whole_Examples.
Local Open Scope N_scope.

(** XML has no control characters *)
Lemma references_chars : forall c r, In (c, r) references -> xml_chars r.
Proof. intros c r I. cbn in I. repeat (destruct I as [I|I]; [injection I as <- <-; apply chars_b_ok; reflexivity|]). destruct I. Qed.
Lemma name_chars : forall n, qname n -> xml_chars n.
Proof. intros n (_ & F). eapply Forall_impl; [|exact F]. intros c C. unfold name_byte in C. left. lia. Qed.
Lemma value_chars : forall e v, xml_value e v -> xml_chars e.
Proof.
  induction 1 as [|c e v C1 C2 C3 C4 H IH|c e v C H IH|c r e v I H IH]; [constructor| | |].
  - constructor; [left; exact C1|exact IH].
  - constructor; [right; exact C|exact IH].
  - apply Forall_app. split; [exact (references_chars _ _ I)|exact IH].
Qed.
Lemma attrs_chars : forall t l, xml_attrs t l -> xml_chars t.
Proof.
  induction 1 as [|n e v s l Q V NI H IH]; [constructor|]. constructor; [left; lia|]. apply Forall_app. split; [exact (name_chars _ Q)|].
  apply Forall_app. split; [apply chars_b_ok; reflexivity|]. apply Forall_app. split; [exact (value_chars _ _ V)|]. constructor; [left; lia|exact IH].
Qed.
Lemma tag_chars : forall t n l, xml_tag t n l -> xml_chars t /\ xml_chars n.
Proof.
  intros t n l (s & -> & Q & A). split; [|exact (name_chars _ Q)]. constructor; [left; lia|]. apply Forall_app. split; [exact (name_chars _ Q)|exact (attrs_chars _ _ A)].
Qed.
Lemma reads_chars : forall st s l, reads st s l -> Forall (fun e => xml_chars (fst e)) st -> xml_chars s.
Proof.
  induction 1 as [|e st c s l C N1 N2 H IH|e st c r s l I H IH|m sc st t n p local al s l T PS NN H IH|m sc st t n p local al s l T PS NN H IH|n sc st s l H IH]; intros F.
  - constructor.
  - constructor; [destruct C as [C|[C|C]]; auto|exact (IH F)].
  - apply Forall_app. split; [exact (references_chars _ _ I)|exact (IH F)].
  - destruct (tag_chars _ _ _ T) as (A & B). apply Forall_app. split; [exact A|]. constructor; [left; lia|]. apply IH. constructor; [exact B|exact F].
  - destruct (tag_chars _ _ _ T) as (A & B). apply Forall_app. split; [exact A|]. apply Forall_app. split; [apply chars_b_ok; reflexivity|exact (IH F)].
  - apply Forall_app. split; [apply chars_b_ok; reflexivity|]. apply Forall_app. split; [exact (Forall_inv F)|]. constructor; [left; lia|exact (IH (Forall_inv_tail F))].
Qed.
Lemma document_chars : forall d e, xml_document d e -> xml_chars d.
Proof.
  intros d e (t & n & p & local & al & T & _ & _ & H). destruct (tag_chars _ _ _ T) as (A & B). destruct H as [(s & l & -> & R & _)|(-> & _)].
  - apply Forall_app. split; [exact A|]. constructor; [left; lia|]. apply (reads_chars _ _ _ R). constructor; [exact B|constructor].
  - apply Forall_app. split; [exact A|apply chars_b_ok; reflexivity].
Qed.
Lemma control_not_xml : let a := Api_Model.run [SetAttr AVersion (Some [1])] archive_create in
  forall d, archive_doc a [] [] = xml_declaration a ++ instruction a ++ d ++ [10] -> forall e, ~ xml_document d e.
Proof.
  intros a d E e X. apply document_chars in X.
  assert (I : In 1 (archive_doc a [] [])) by (apply (proj1 (existsb_exists (N.eqb 1) _)) || idtac; vm_compute; tauto).
  rewrite E in I. change (instruction a) with (@nil N) in I. cbn [app] in I. apply in_app_or in I as [I|I].
  - vm_compute in I. repeat (destruct I as [I|I]; [discriminate I|]). destruct I.
  - apply in_app_or in I as [I|[I|[]]]; [|discriminate I]. unfold xml_chars in X. rewrite Forall_forall in X. specialize (X _ I). cbn in X. lia.
Qed.
Definition prefixed_calls : list Api_Model.call := [RegisterNamespace (Some (txt "s")) (Some SRC_URI); RegisterMacro (Some (txt "F")) (Some (txt "src:macro"))].
Lemma prefixed_fine : fine_archive (Api_Model.run prefixed_calls archive_create) [].
Proof.
  constructor.
  - match goal with |- Forall _ ?l => let r := eval vm_compute in l in replace l with r by (vm_compute; reflexivity) end.
    repeat first [apply Forall_nil|apply Forall_cons];
      (split; [first [left; reflexivity|right; split; [name_ok|repeat split; discriminate]]|split; [discriminate|apply chars_b_ok; vm_compute; reflexivity]]).
  - vm_compute. repeat constructor; cbn; intros H; repeat destruct H as [H|H]; try discriminate H; exact H.
  - split; [apply chars_b_ok; vm_compute; reflexivity|]. split; [exact Logic.I|]. split; [exact Logic.I|]. vm_compute. reflexivity.
  - split; [constructor|intros n v []].
  - replace (pairs_of _) with [(txt "F", txt "src:macro")] by (vm_compute; reflexivity). constructor; [|constructor]. split; apply chars_b_ok; vm_compute; reflexivity.
Qed.
Lemma macro_nowhere : let a := Api_Model.run prefixed_calls archive_create in
  exists d e, archive_doc a [] [] = xml_declaration a ++ instruction a ++ d ++ [10] /\ xml_document d e /\
    In (XStart (txt "macro-list") None [(txt "token", txt "F"); (txt "type", txt "src:macro")]) e.
Proof.
  intros a. assert (A : N.testbit (a_options a) 14 = true) by (vm_compute; reflexivity).
  assert (B : N.testbit (a_options a) 8 = true) by (vm_compute; reflexivity). assert (R : a_revision_number a = None) by (vm_compute; reflexivity).
  assert (M : pairs_of (a_macros a) = [(txt "F", txt "src:macro")]) by (vm_compute; reflexivity).
  assert (ND : existsb (fun p => if bytes_dec (fst p) (txt "xmlns") then true else false) (root_attrs a []) = false) by (vm_compute; reflexivity).
  pose proof (archive_read_as_xml (fun s => s) a [] [] [] (produced_run prefixed_calls) prefixed_fine A B R (Forall2_nil _)) as P.
  destruct P as (d & mu & evs & D & _ & MU & L & _ & X).
  eexists d, _. split; [exact D|]. split; [exact X|]. assert (mu = None) as ->.
  { destruct mu as [u|]; [|reflexivity]. exfalso. pose proof (proj1 (MU u) eq_refl) as I.
    apply Bool.diff_true_false. rewrite <- ND. symmetry. apply existsb_exists. exists (declaration [] u). split; [exact I|]. cbn [fst declaration]. destruct (bytes_dec _ _) as [|Z]; [reflexivity|destruct (Z eq_refl)]. }
  right. apply in_or_app. left. unfold macro_events. rewrite M. left. reflexivity.
Qed.
