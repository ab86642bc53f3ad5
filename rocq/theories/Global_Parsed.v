(** The unit srcml() parses. *)
From Verif Require Import Base Text_Model Text_Spec Text_Proofs Api_Model Api_Spec Api_Proofs Api_Proofs2 Api_Proofs3 Writer_Model Writer_Spec Writer_Proofs3 Writer_Proofs8 Writer_Proofs10 Archive_Model Archive_Spec Archive_Proofs2 Archive_Proofs4
  Root_Model Root_Spec Root_Proofs5 Source_Model Source_Spec Source_Proofs4 Source_Examples Whole_Spec Whole_Examples Reuse_Model Create_Model Global_Model Global_Spec Global_Settings Global_Source.
From Verif Require Properties_Api.
Local Open Scope N_scope.

(** ** Archives after ordinary settings *)
Definition calm_call (c : Api_Model.call) : Prop := match c with SetAttr _ _ | EnableOption _ | DisableOption _ | SetTabstop _ | RegisterExtension _ _ => True | _ => False end.
Lemma ordinary_calm : forall h, Forall ordinary h -> Forall calm_call (flat_map archive_call h).
Proof.
  intros h F. apply Forall_forall. intros c I. apply in_flat_map in I as (x & I & J). apply (proj1 (Forall_forall _ _) F) in I. destruct x; cbn in J; try contradiction; destruct J as [<-|[]]; try exact Logic.I; contradiction.
Qed.
Definition basics (a : archive) := (a_namespaces a, a_macros a, a_revision_number a, a_revision a, a_pi a, N.testbit (a_options a) 8, N.testbit (a_options a) 15).
Lemma calm_step : forall a c, calm_call c -> basics (snd (Api_Model.step a c)) = basics a.
Proof.
  intros a c C. unfold basics. destruct c as [k v|o|o|o| | | | |n|[e|] [l|]|q u|t y|n]; try contradiction; try reflexivity.
  - destruct k; reflexivity.
  - cbn [Api_Model.step snd with_options a_namespaces a_macros a_revision_number a_revision a_pi a_options]. rewrite !N.lor_spec, !(N.mod_pow2_bits_high _ 7) by lia. rewrite !orb_false_r.
    destruct (N.testbit o 3); [|reflexivity]. unfold OPT_CPP_DECLARED. rewrite !N.lor_spec, !N.pow2_bits_false by lia. rewrite !orb_false_r. reflexivity.
  - cbn [Api_Model.step snd with_options a_namespaces a_macros a_revision_number a_revision a_pi a_options]. rewrite !N.ldiff_spec, !(N.mod_pow2_bits_high _ 7) by lia. rewrite !andb_true_r. reflexivity.
Qed.
Lemma calm_run : forall h a, Forall calm_call h -> basics (Api_Model.run h a) = basics a.
Proof.
  induction h as [|c h IH]; intros a F; [reflexivity|]. inversion F as [|? ? F1 F2]; subst. unfold Api_Model.run. cbn [fold_left]. fold (Api_Model.run h (snd (Api_Model.step a c))). rewrite IH by exact F2. apply calm_step. exact F1.
Qed.
Lemma latest_forall : forall {A B} (f : A -> option B) (P : A -> Prop) (Q : B -> Prop) h, Forall P h -> (forall c b, P c -> f c = Some b -> Q b) -> forall b, latest f h = Some b -> Q b.
Proof.
  intros A B f P Q h F H. induction F as [|c h Pc F IH]; intros b E; [discriminate E|]. cbn [latest] in E. destruct (latest f h) as [b'|]; [apply IH; exact E|]. exact (H c b Pc E).
Qed.
Lemma attr_chars : forall k h, Forall ordinary h -> xml_chars_opt (attr_set k h).
Proof.
  intros k h F. unfold attr_set, last_set. match goal with |- xml_chars_opt (match latest ?f h with _ => _ end) => destruct (latest f h) as [v|] eqn:E; [|exact Logic.I]; refine (latest_forall f ordinary xml_chars_opt h F _ v E) end.
  intros c b O E'. destruct c; try discriminate E'. destruct (same_attr k k0); [|discriminate E']. injection E' as <-. exact O.
Qed.
Lemma filename_chars : forall h, Forall ordinary h -> xml_chars_opt (filename_set h).
Proof.
  intros h F. unfold filename_set, last_set. match goal with |- xml_chars_opt (match latest ?f h with _ => _ end) => destruct (latest f h) as [v|] eqn:E; [|exact Logic.I]; refine (latest_forall f ordinary xml_chars_opt h F _ v E) end.
  intros c b O E'. destruct c; try discriminate E'. injection E' as <-. exact O.
Qed.
Lemma timestamp_chars : forall h, Forall ordinary h -> xml_chars_opt (timestamp_set h).
Proof.
  intros h F. unfold timestamp_set, last_set. match goal with |- xml_chars_opt (match latest ?f h with _ => _ end) => destruct (latest f h) as [v|] eqn:E; [|exact Logic.I]; refine (latest_forall f ordinary xml_chars_opt h F _ v E) end.
  intros c b O E'. destruct c; try discriminate E'. injection E' as <-. exact O.
Qed.
Lemma chars_clean : forall v, xml_chars_opt v -> clean_opt v.
Proof. intros [v|] H; [|exact Logic.I]. apply Forall_forall. intros c I. apply (proj1 (Forall_forall _ _) H) in I. lia. Qed.
Lemma tabstop_bound : forall h, Forall ordinary h -> a_tabstop (Api_Model.run (flat_map archive_call h) archive_create) < 2 ^ 64.
Proof.
  intros h F. rewrite tabstop_history. destruct (latest sets_tabstop (flat_map archive_call h)) as [n|] eqn:E; [|vm_compute; reflexivity]. cbn [dflt].
  refine (latest_forall sets_tabstop (fun c => forall n, c = SetTabstop n -> n < 2 ^ 64) (fun n => n < 2 ^ 64) _ _ _ n E).
  - apply Forall_forall. intros c I n0 ->. apply in_flat_map in I as (x & I & J). apply (proj1 (Forall_forall _ _) F) in I. destruct x; cbn in J; try contradiction; destruct J as [J|[]]; try discriminate J. injection J as ->. exact I.
  - intros c b H E'. destruct c; try discriminate E'. injection E' as ->. apply H. reflexivity.
Qed.
(** the archive the unit is written to *)
Record lone_facts (h : list gcall) (a : archive) : Prop := LoneFacts {
  lf_ns : a_namespaces a = a_namespaces archive_create; lf_macros : a_macros a = []; lf_number : a_revision_number a = None; lf_revision : a_revision a = Some VERSION_STRING; lf_pi : a_pi a = None;
  lf_decl : N.testbit (a_options a) 8 = true; lf_hash : N.testbit (a_options a) 15 = true; lf_attr : forall k, get_attr a k = attr_set k h; lf_tabs : a_tabstop a < 2 ^ 64;
  lf_lone : N.testbit (a_options a) 14 = false }.
Lemma no_instruction : forall h, Forall ordinary h -> latest instruction_set h = None.
Proof. intros h F. induction F as [|c h O F IH]; [reflexivity|]. cbn [latest]. rewrite IH. destruct c; try reflexivity. contradiction. Qed.
Lemma lone_ok : forall h rs g, grun initial h = Ok (rs, g) -> Forall ordinary h -> lone_facts h (lone_archive g).
Proof.
  intros h rs g G F. assert (AT : forall k, get_attr (g_archive g) k = attr_set k h) by (intros k; eapply attr_is; exact G). pose proof (lone_is g) as LO. unfold is_archive in LO.
  pose proof (calm_run _ archive_create (ordinary_calm h F)) as B. pose proof (tabstop_bound h F) as TB. unfold basics in B. cbn [archive_create a_namespaces a_macros a_revision_number a_revision a_pi a_options] in B. injection B as B1 B2 B3 B4 B5 B6 B7.
  assert (LA : forall k, get_attr (lone_archive g) k = get_attr (g_archive g) k) by (intros []; reflexivity).
  rewrite (global_archive_is _ _ _ G), (no_instruction h F) in *. unfold lone_archive in *. cbn [Api_Model.step snd with_options g_archive outfit with_pi with_extensions a_namespaces a_macros a_revision_number a_revision a_pi a_options a_tabstop] in *.
  constructor.
  - exact B1.
  - exact B2.
  - exact B3.
  - exact B4.
  - reflexivity.
  - cbn [a_options with_options]. unfold OPT_ARCHIVE. rewrite N.ldiff_spec, N.pow2_bits_false by lia. rewrite B6. reflexivity.
  - cbn [a_options with_options]. unfold OPT_ARCHIVE. rewrite N.ldiff_spec, N.pow2_bits_false by lia. rewrite B7. reflexivity.
  - intros k. rewrite LA. apply AT.
  - exact TB.
  - exact LO.
Qed.
