(** Runs that come to their end, and concrete documents (C59). *)
From Verif Require Import Base Text_Model Text_Spec Text_Proofs Text_Proofs3 Api_Model Api_Spec Api_Proofs Api_Proofs3 Writer_Model Writer_Spec Writer_Proofs2 Archive_Model Archive_Spec Root_Model Root_Spec Root_Proofs Root_Proofs2 Root_Proofs5 Root_Proofs8 Source_Model Source_Spec Source_Proofs Source_Proofs2 Source_Proofs4 Source_Examples Archive_Declared Declared_Spec Whole_Spec Whole_Tags Whole_Reads Whole_Unit Whole_Archive Whole_Lone Whole_Examples Handoff_Model Handoff_Spec Sax_Model Sax_Spec Stream_Spec Sax_Proofs7 Back_Spec Back_Reads Back_Invert Back_Unit Back_Attrs Back_Archive Back_Solo Back_Exists.
Local Open Scope N_scope.

(** what can always go on, within a bound, comes to its end *)
Lemma steps_more : forall {X H B} (M : machine X H B) ls l s s1 s2, steps M ls s = Some s1 -> step M l s1 = Some s2 -> steps M (ls ++ [l]) s = Some s2.
Proof.
  intros X H B M ls. induction ls as [|k ls IH]; intros l s s1 s2 E F; cbn [steps app] in *; [injection E as ->; rewrite F; reflexivity|].
  destruct (step M k s) as [s'|]; [|discriminate E]. exact (IH l s' s1 s2 E F).
Qed.
Lemma finishes : forall {X H B} (M : machine X H B) s0 n,
  (forall ls s, calm ls -> steps M ls s0 = Some s -> (cl s = CGone \/ exists l s', (l = Caller \/ l = Parser) /\ step M l s = Some s') /\ (length ls <= n)%nat) ->
  exists ls s, calm ls /\ steps M ls s0 = Some s /\ cl s = CGone.
Proof.
  intros X H B M s0 n P.
  assert (G : forall k ls s, calm ls -> steps M ls s0 = Some s -> (n < length ls + k)%nat -> exists ls s, calm ls /\ steps M ls s0 = Some s /\ cl s = CGone).
  { induction k as [|k IH]; intros ls s C S L; destruct (P ls s C S) as (D & B0); [lia|]. destruct D as [D|(l & s' & Hl & D)]; [exists ls, s; auto|].
    apply (IH (ls ++ [l]) s').
    - apply Forall_app. split; [exact C|]. constructor; [exact Hl|constructor].
    - exact (steps_more M ls l s0 s s' S D).
    - rewrite app_length. cbn [length]. lia. }
  apply (G (S n) [] s0); [constructor|reflexivity|cbn; lia].
Qed.
(** a unit that is the document *)
Theorem something_reported_lone : forall extract a x ts s, produced (a, []) -> fine_archive a [] -> a_revision_number a = None -> parsed_in extract a x ts s ->
  exists d evs, solitary_doc a x = xml_declaration a ++ instruction a ++ d ++ [10] /\ reported (instruction a) d evs.
Proof.
  intros extract a x ts s PR FA RN PI. pose proof (produced_ns_ok _ PR) as K. cbn [fst] in K.
  destruct (parsed_facts extract a [] x ts s RN (proj1 K) FA PI) as (X & C & SN & FG). set (v := snd (fst x)) in *. assert (MO := out_fine a [] 0 _ FA SN).
  destruct PI as (u & lang & encoding & hash & w & N0 & U & H & FU & SH & P & XW & GU).
  set (pre := fun i => prefix_at i (Archive_Spec.root_namespaces a)) in *. set (o := tag_settings a 0 (all_namespaces a v)) in *. set (g := in_archive_args a a v) in *.
  assert (P0 : pre 0%nat = prefix_at SRC (so_ns o)) by (symmetry; apply same_at; exact SN).
  assert (PZ : prefix_name (pre 0%nat)) by (apply fine_prefix; exact (fa_ns _ _ FA)).
  destruct (tag_ok o _ MO FG) as (TF & TD). destruct (prefixed_ns (pre 0%nat) (txt "unit") PZ) as (Q & E & NN); [name_ok|split; discriminate|].
  assert (T : xml_tag (start_tag o g) (prefixed (pre 0%nat) (txt "unit")) (tag_attrs o g)).
  { exists (attrs (tag_attrs o g)). split; [unfold start_tag; rewrite <- P0; reflexivity|]. split; [exact Q|]. apply attrs_read; assumption. }
  assert (EU : unit_doc a 0 x = unit_xml (start_tag o g) (prefixed (pre 0%nat) (txt "unit")) (nonempty (flat_map (tree_xml pre) ts))).
  { unfold unit_doc. rewrite X. cbn [fst snd]. rewrite C, P0. reflexivity. }
  exists (unit_doc a 0 x). set (lead := match a_pi a with Some (t, d) => [XPI (txt "<?" ++ t ++ [32] ++ d ++ txt "?>"); XSkip [10]] | None => [] end).
  assert (L1 : Forall (fun e => outside e /\ xtext e <> []) lead) by (unfold lead; destruct (a_pi a) as [(t, d)|]; repeat (constructor; [split; [exact Logic.I|discriminate]|]); constructor).
  assert (L2 : text_of lead = instruction a).
  { unfold lead, instruction. destruct (a_pi a) as [(t, d)|]; [|reflexivity]. unfold text_of. cbn [map concat xtext]. rewrite <- !app_assoc. reflexivity. }
  destruct (flat_map (tree_xml pre) ts) as [|c cs] eqn:CC.
  - eexists. split; [reflexivity|]. eexists lead, _, _, _, _. split; [exact L1|]. split; [exact L2|]. split; [exact (mk_is _ _ _ _ _ true T E NN)|]. split; [reflexivity|]. right. split; [reflexivity|]. split; [rewrite EU; reflexivity|reflexivity].
  - assert (R : rep [prefixed (pre 0%nat) (txt "unit")] (flat_map (tree_xml pre) ts ++ txt "</" ++ prefixed (pre 0%nat) (txt "unit") ++ [62] ++ [])).
    { apply (forest_rep ts s SH pre); [intros i _; apply fine_prefix; exact (fa_ns _ _ FA)|]. apply (rep_end _ _ _ _ _ NN). exists []. constructor. }
    apply rep_reports in R as (l & R). eexists. split; [reflexivity|]. eexists lead, _, _, _, l. split; [exact L1|]. split; [exact L2|]. split; [exact (mk_is _ _ _ _ _ false T E NN)|]. split; [reflexivity|].
    left. split; [reflexivity|]. eexists. split; [|exact R]. rewrite EU, CC. cbn [nonempty unit_xml t_raw mk_tag]. change (txt ">") with [62]. rewrite app_nil_r. reflexivity.
Qed.
Lemma cpp_named_new : forall a, Archive_Spec.root_namespaces a = Archive_Spec.root_namespaces archive_create -> cpp_named a.
Proof.
  intros a E. unfold cpp_named. rewrite E. apply Forall_forall. intros n I U. vm_compute in I. repeat (destruct I as [<-|I]; [first [discriminate U|discriminate]|]). destruct I.
Qed.
(** ** An archive without units is written, and read as one unit *)
Definition bare : tag := mk_tag (root_tag archive_create []) None (txt "unit") (Declared_Spec.root_attrs archive_create []) true.
Definition bare_events : list xev := [XStart bare; XEnd (txt "unit") (txt "/>"); XSkip [10]].
Lemma no_units : exists d s ls b, Archive_Spec.archive_doc archive_create [] [] = xml_declaration archive_create ++ d ++ [10] /\ reported [] d bare_events /\ calm ls /\
  steps sax ls (open (parse bare_events false) [Read]) = Some s /\ cl s = CGone /\ results s = [RUnit (Some (t_attrs bare)) (Some b)].
Proof.
  assert (FA : fine_archive archive_create []).
  { destruct (fine_ns_new archive_create eq_refl) as (A & B). constructor; [exact A|exact B| | |].
    - split; [apply chars_b_ok; vm_compute; reflexivity|]. split; [exact Logic.I|]. split; [exact Logic.I|]. vm_compute. reflexivity.
    - split; [constructor|intros n v []].
    - constructor. }
  destruct (root_fine archive_create [] FA) as (RO & RG). destruct (tag_ok _ _ RO RG) as (TF & TD).
  assert (T : xml_tag (root_tag archive_create []) (txt "unit") (Declared_Spec.root_attrs archive_create [])).
  { exists (attrs (Declared_Spec.root_attrs archive_create [])). split; [reflexivity|]. split; [split; [discriminate|repeat (constructor; [unfold name_byte; vm_compute; repeat split; discriminate|]); constructor]|]. apply attrs_read; assumption. }
  exists (root_tag archive_create [] ++ txt "/>").
  eexists. exists (caller_first sax 100 (open (parse bare_events false) [Read])). eexists. split; [vm_compute; reflexivity|]. split.
  - exists [], bare, (txt "unit"), (Declared_Spec.root_attrs archive_create []), [XEnd (txt "unit") (txt "/>")]. split; [constructor|]. split; [reflexivity|]. split; [|split; [reflexivity|right; split; [reflexivity|split; reflexivity]]].
    apply mk_is; [exact T|split; discriminate|]. split; [name_ok|reflexivity].
  - split; [apply caller_first_calm|]. split; [vm_compute; reflexivity|]. split; vm_compute; reflexivity.
Qed.
