(** Units that come from source code, and concrete documents. *)
From Verif Require Import Base Text_Model Text_Spec Text_Proofs Api_Model Api_Spec Writer_Model Writer_Spec Writer_Proofs10 Archive_Model Archive_Spec Archive_Proofs4 Root_Model Root_Spec Root_Proofs Root_Proofs5 Root_Proofs8
  Parser_Model Parser_Spec Parser_Proofs3 Parser_View Parser_View2 Parser_View3 Parser_View4 Parser_View5 Source_Tokens Writer_Proofs3 Source_Model Source_Spec Source_Proofs Source_Proofs4 Source_Elements Source_Whole Source_Examples Declared_Spec Whole_Spec.
Local Open Scope N_scope.

Lemma from_source : forall extract a u lang encoding hash o rs src cs l s tks, a_revision_number a = None -> uo_namespaces (wu u) = None ->
  usable a (parse_start a (wu u) lang encoding) -> clean_opt hash -> fine_unit a (parse_end a (wu u) lang encoding hash) -> lexed src ->
  pull o rs cs (construct src) = (l, AtEof, s) -> (forall f, In f (log s) -> f = Fcomment \/ f = Fouter) ->
  printed (Writer_Spec.prefix_of a (parse_start a (wu u) lang encoding) POS) (outputs l) tks ->
  exists v c ts, parse_unit extract a u lang encoding hash tks = Ok (ST_OK, v) /\ tks = flat_map tokens_of ts /\ parsed_in extract a (a, wu v, c) ts (source src).
Proof.
  intros extract a u lang encoding hash o rs src cs l s tks RN N0 U H FU LX P LG PR.
  assert (N1 : ~ In Fnop (log s)) by (intros I; destruct (LG _ I); discriminate).
  assert (N2 : ~ In Fmacro (log s)) by (intros I; destruct (LG _ I); discriminate).
  destruct (stream_balance _ _ _ _ _ _ _ P LG) as (B1 & B2). specialize (B2 eq_refl).
  destruct (stream_written _ _ _ _ _ _ _ P N1 N2) as (_ & W). specialize (W eq_refl).
  assert (FP : fine_position (Writer_Spec.prefix_of a (parse_start a (wu u) lang encoding) POS)).
  { destruct FU as (NS & _). unfold Writer_Spec.prefix_of, prefix_at. change (so_ns (unit_out a (parse_start a (wu u) lang encoding))) with (so_ns (unit_out a (parse_end a (wu u) lang encoding hash))).
    destruct (nth_error _ POS) as [n|] eqn:E; [|left; reflexivity].
    pose proof (proj1 (Forall_forall _ _) NS n (nth_error_In _ _ E)) as ([Q|(Q1 & _ & Q2 & _)] & _); [left; exact Q|right; auto]. }
  destruct (build_all _ _ _ FP PR (stream_fine _ _ _ _ _ _ _ P N1 N2 LX) B1 B2) as (ts & -> & SH). rewrite W in SH.
  destruct (parsed_good extract a u lang encoding hash ts U H (shows_good _ _ SH) RN) as (v & E & G). eexists v, _, ts. split; [exact E|]. split; [reflexivity|].
  exists u, lang, encoding, hash, v. repeat (split; [assumption|]). split; [reflexivity|exact G].
Qed.
Lemma fine_ns_new : forall a, root_namespaces a = root_namespaces archive_create ->
  Forall (fun n => (ns_prefix n = [] \/ ncname (ns_prefix n) /\ plain_start (ns_prefix n) /\ ns_prefix n <> txt "xmlns" /\ ns_prefix n <> txt "xml") /\
                           ns_uri n <> [] /\ xml_chars (ns_uri n)) (root_namespaces a) /\ NoDup (map ns_prefix (root_namespaces a)).
Proof.
  intros a E. rewrite E. destruct a_c_fine as (A & B & _). split; [exact A|exact B].
Qed.
(** two macros, and a lone unit *)
Definition macro_calls : list Api_Model.call := [RegisterMacro (Some (txt "F")) (Some (txt "src:macro")); EnableOption 4].
Definition lone_calls : list Api_Model.call := [EnableSolitary].
Lemma macro_fine : fine_archive (Api_Model.run macro_calls archive_create) [].
Proof.
  destruct (fine_ns_new (Api_Model.run macro_calls archive_create)) as (A & B); [vm_compute; reflexivity|]. constructor; [exact A|exact B| | |].
  - split; [apply chars_b_ok; vm_compute; reflexivity|]. split; [exact Logic.I|]. split; [exact Logic.I|]. vm_compute. reflexivity.
  - split; [constructor|intros n v []].
  - replace (pairs_of _) with [(txt "F", txt "src:macro")] by (vm_compute; reflexivity). constructor; [|constructor]. split; apply chars_b_ok; vm_compute; reflexivity.
Qed.
Lemma lone_fine : fine_archive (Api_Model.run lone_calls archive_create) [].
Proof.
  destruct (fine_ns_new (Api_Model.run lone_calls archive_create)) as (A & B); [vm_compute; reflexivity|]. constructor; [exact A|exact B| | |].
  - split; [apply chars_b_ok; vm_compute; reflexivity|]. split; [exact Logic.I|]. split; [exact Logic.I|]. vm_compute. reflexivity.
  - split; [constructor|intros n v []].
  - constructor.
Qed.
(** a<b, a form feed and a line end, with markup and a directive *)
Definition small : list tree := [TreeElem 0 (txt "name") [] (attrs []) [TreeText [97; 60; 98]]; TreeEmpty 0 (txt "escape") [(txt "char", control_value 12)];
  TreeElem 1 (txt "include") [] (attrs []) [TreeText [10]]].
Lemma small_shows : shows small [97; 60; 98; 12; 10].
Proof.
  unfold small. apply (sh_elem 0 (txt "name") [] [] [TreeText [97; 60; 98]] [97; 60; 98] _ [12; 10]).
  - name_ok.
  - split; discriminate.
  - discriminate.
  - split; constructor.
  - apply (sh_text [97; 60; 98] [] []); [|constructor]. repeat (constructor; [left; vm_compute; discriminate|]). constructor.
  - apply (sh_control 12 _ [10]); [reflexivity|]. apply (sh_elem 1 (txt "include") [] [] [TreeText [10]] [10] [] []).
    + name_ok.
    + split; discriminate.
    + discriminate.
    + split; constructor.
    + apply (sh_text [10] [] []); [|constructor]. constructor; [right; right; reflexivity|constructor].
    + constructor.
Qed.
Lemma small_parsed : forall extract h, let a := Api_Model.run h archive_create in a_namespaces a = a_namespaces archive_create -> a_revision_number a = None -> N.testbit (a_options a) 8 = true ->
  a_language a = None -> a_url a = None -> a_tabstop a < 2 ^ 64 -> exists v c, parsed_in extract a (a, wu v, c) small [97; 60; 98; 12; 10].
Proof.
  intros extract h a NS RN D LA UR TB.
  assert (E0 : parse_start a (wu a_c) 2 None = parse_start archive_create (wu a_c) 2 None) by (unfold parse_start; rewrite UR; reflexivity).
  assert (U : usable a (parse_start a (wu a_c) 2 None)).
  { rewrite E0. destruct a_c_usable as (U1 & U2 & U3 & U4 & U5). split; [exact D|]. rewrite unit_out_ns in *. unfold clean_unit, unit_namespaces in *. rewrite NS, LA. split; [exact U2|]. split; [exact U3|]. split; [exact U4|exact U5]. }
  assert (F : fine_unit a (parse_end a (wu a_c) 2 None None)).
  { unfold parse_end. rewrite E0. destruct a_c_fine as (A & B & C1 & C). unfold fine_unit. rewrite unit_out_ns in *. unfold unit_namespaces in *. rewrite NS, LA.
    split; [exact A|]. split; [exact B|]. split; [exact C1|]. destruct C as (C2 & C3 & C4 & C5 & C6). repeat (split; [first [exact C2|exact C3|exact C4|exact TB]|]). exact C6. }
  destruct (parsed_good extract a a_c 2 None None small U Logic.I (shows_good _ _ small_shows) RN) as (v & E & G). eexists v, _.
  exists a_c, 2, None, None, v. split; [reflexivity|]. split; [exact U|]. split; [exact Logic.I|]. split; [exact F|]. split; [exact small_shows|]. split; [exact E|]. split; [reflexivity|exact G].
Qed.
Lemma produced_run : forall h, produced (Api_Model.run h archive_create, []).
Proof.
  intros h. assert (X : forall h a, produced (a, []) -> produced (Api_Model.run h a, [])).
  { intros k. induction k as [|c k IH]; intros a P; [exact P|]. apply IH. apply produced_call. exact P. }
  apply X, produced_new.
Qed.
