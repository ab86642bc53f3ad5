(** Proofs about archive documents (C23). *)
From Verif Require Import Base Text_Model Text_Spec Text_Proofs Text_Proofs2 Text_Proofs3 Api_Model Api_Proofs Api_Proofs3 Writer_Model Writer_Spec Writer_Proofs Writer_Proofs2 Writer_Proofs3 Writer_Proofs4 Writer_Proofs7 Archive_Model Archive_Spec.
Local Open Scope N_scope.

Lemma start_tag_ext : forall o o' g, so_options o = so_options o' -> so_depth o = so_depth o' -> so_tabs o = so_tabs o' -> so_ns o = so_ns o' -> start_tag o g = start_tag o' g.
Proof.
  intros o o' g E1 E2 E3 E4. unfold start_tag, tag_attrs, ns_now. rewrite (unit_attrs_ext o o' g E1 E2 E3) by (rewrite E4; reflexivity). rewrite E1, E2, E4. reflexivity.
Qed.
(** ** The macro list *)
Lemma macro_ok : forall p w c l, w_nodes w = Some (c :: l) -> w_ns w = [] ->
  macro_element w p = Writer (w_out (close_tag w) ++ macro_xml p) (Some (c :: l)) false [].
Proof.
  intros [tk ty] w c l N NS. unfold macro_element, start_element. cbn [txt list_ascii_of_string map].
  rewrite close_nodes, N. cbn [fst]. rewrite add_attrs_ok by reflexivity. unfold end_element. cbn [w_nodes w_intag w_out w_ns fst snd].
  rewrite (close_empty_ns _ NS). cbn [attrs flat_map]. f_equal. unfold macro_xml. rewrite <- !app_assoc. reflexivity.
Qed.
Definition macros_written (ps : list (bytes * bytes)) (w : writer) : writer :=
  match ps with [] => w | _ => Writer (w_out (close_tag w) ++ flat_map macro_xml ps) (w_nodes w) false [] end.
Lemma macros_ok : forall ps w c l, w_nodes w = Some (c :: l) -> w_ns w = [] -> fold_left macro_element ps w = macros_written ps w.
Proof.
  induction ps as [|p ps IH]; intros w c l N NS; [reflexivity|]. cbn [fold_left]. rewrite (macro_ok p w c l N NS).
  rewrite (IH _ c l) by reflexivity. unfold macros_written. destruct ps as [|p2 ps].
  - cbn [flat_map]. rewrite app_nil_r, N. reflexivity.
  - rewrite close_closed. cbn [w_out w_nodes]. rewrite N. cbn [flat_map]. rewrite <- !app_assoc. reflexivity.
Qed.

(** ** One unit *)
Definition unit_written (w : writer) (tag name : bytes) (c : option bytes) : writer :=
  Writer (w_out (close_tag w) ++ unit_xml tag name c) (w_nodes w) false [].
Lemma close_out_ok : forall tag name l (c : option bytes) w0,
  let w := Writer (w0 ++ tag) (Some (name :: l)) true [] in
  fst (end_element (match c with Some b => fst (write_raw w b) | None => w end)) = Writer (w0 ++ unit_xml tag name c) (Some l) false [].
Proof.
  intros tag name l [b|] w0 w; unfold w; unfold write_raw, close_tag, end_element, unit_xml; cbn [w_intag w_out w_nodes w_ns attrs flat_map fst snd app].
  - f_equal. cbn [txt list_ascii_of_string map]. rewrite <- !app_assoc. reflexivity.
  - f_equal. rewrite <- !app_assoc. reflexivity.
Qed.
Definition matches (t : trans) (a : archive) : Prop :=
  so_options (t_out t) = a_options a /\ so_tabs (t_out t) = dec_of (a_tabstop a) /\ t_revision t = a_revision a /\ t_outputting t = false.
Lemma args_eq : forall a ua t u, matches t a -> unit_args ua t u = in_archive_args a ua u.
Proof. intros a ua t u (O & _ & R & _). unfold unit_args, in_archive_args, is_archive. rewrite O, R. reflexivity. Qed.

Lemma unit_ok : forall a ua u c t w l, matches t a -> content ua u c -> t_first t = false ->
  so_w (t_out t) = Some w -> w_nodes w = Some l -> w_ns w = [] ->
  let w1 := if is_archive a then fst (write_raw w [10; 10]) else w in
  exists t', add_unit ua t u = Ok (t', true) /\ matches t' a /\ t_first t' = false /\
    so_depth (t_out t') = (if so_depth (t_out t) =? 0 then 1 else so_depth (t_out t)) /\ so_didwrite (t_out t') = true /\
    so_w (t_out t') = Some (Writer (w_out (close_tag w1) ++ unit_doc a (so_depth (t_out t)) (ua, u, c)) (Some l) false []).
Proof.
  intros a ua u c t w l M C F W L NS w1. pose proof M as (O & TB & R & OUT). unfold add_unit. rewrite OUT. unfold prepare_output. rewrite F.
  rewrite O. fold (is_archive a).
  set (t1 := if is_archive a then with_out t (separator (t_out t)) else t).
  assert (W1 : so_w (t_out t1) = Some w1 /\ so_options (t_out t1) = a_options a /\ so_tabs (t_out t1) = dec_of (a_tabstop a) /\ t_revision t1 = a_revision a /\
     so_depth (t_out t1) = so_depth (t_out t) /\ t_outputting t1 = false /\ t_first t1 = false).
  { unfold t1, w1. destruct (is_archive a); [unfold with_out, separator, on_w; rewrite W; cbn; repeat split; assumption|repeat split; assumption]. }
  destruct W1 as (W1 & O1 & TB1 & R1 & D1 & OUT1 & F1). clearbody t1.
  assert (L1 : w_nodes w1 = Some l) by (unfold w1; destruct (is_archive a); [unfold write_raw; cbn [fst w_nodes]; rewrite close_nodes; exact L|exact L]).
  assert (NS1 : w_ns w1 = []) by (unfold w1; destruct (is_archive a); [unfold write_raw; cbn [fst w_ns]; apply close_empty_ns, NS|exact NS]).
  clearbody w1.
  set (ll := match uo_namespaces u with Some l => merge (a_namespaces ua) l | None => a_namespaces ua end).
  set (l0 := match a_revision_number ua with Some _ => erase_uri ll DIFF_URI | None => ll end).
  assert (AN : merge default_namespaces l0 = all_namespaces ua u) by reflexivity.
  set (o := init_namespaces (t_out t1) l0).
  assert (Wo : so_w o = Some w1) by exact W1.
  assert (G : unit_args ua t1 u = in_archive_args a ua u) by (apply args_eq; repeat split; assumption).
  destruct (start_unit_ok o (unit_args ua t1 u) w1 l Wo L1) as (ns' & N' & E). rewrite E. clear E.
  rewrite G. cbn [g_macros in_archive_args].
  assert (ST : start_tag o (in_archive_args a ua u) = start_tag (tag_settings a (so_depth (t_out t)) (all_namespaces ua u)) (in_archive_args a ua u)).
  { apply start_tag_ext; cbn [so_options so_depth so_tabs so_ns tag_settings]; try assumption; reflexivity. }
  assert (PX : prefixed (prefix_at SRC (so_ns o)) (txt "unit") = element_name (all_namespaces ua u)) by reflexivity.
  rewrite ST, PX, (close_empty_ns _ NS1).
  destruct C as (b & EB & C). unfold unit_body. rewrite EB. cbn [obind]. unfold selects_revision in C.
  set (tag := start_tag (tag_settings a (so_depth (t_out t)) (all_namespaces ua u)) (in_archive_args a ua u)).
  set (name := element_name (all_namespaces ua u)) in *.
  set (w2 := Writer (w_out (close_tag w1) ++ tag) (Some (name :: l)) true []).
  set (o2 := after_tag o w2 ns').
  (* the writer after the body *)
  assert (X : forall (cc : option bytes), so_w (on_w (match cc with Some b => on_w o2 (fun w => fst (write_raw w b)) | None => o2 end) (fun w => fst (end_element w))) =
     Some (Writer (w_out (close_tag w1) ++ unit_xml tag name cc) (Some l) false [])).
  { intros [bb|]; unfold on_w, o2, after_tag; cbn [so_w with_w]; f_equal; [apply (close_out_ok tag name l (Some bb))|apply (close_out_ok tag name l None)]. }
  assert (DONE : forall (cc : option bytes) (o3 : sout), o3 = match cc with Some b => on_w o2 (fun w => fst (write_raw w b)) | None => o2 end -> cc = c ->
     exists t', Ok (with_out t1 (on_w o3 (fun w => fst (end_element w))), true) = Ok (t', true) /\ matches t' a /\ t_first t' = false /\
       so_depth (t_out t') = (if so_depth (t_out t) =? 0 then 1 else so_depth (t_out t)) /\ so_didwrite (t_out t') = true /\
       so_w (t_out t') = Some (Writer (w_out (close_tag w1) ++ unit_doc a (so_depth (t_out t)) (ua, u, c)) (Some l) false [])).
  { intros cc o3 E3 EC. eexists. split; [reflexivity|]. subst o3 cc.
    split; [|split; [exact F1|]].
    - repeat split; cbn [with_out t_out t_revision t_outputting]; try assumption.
      + destruct c; exact O1.
      + destruct c; exact TB1.
    - split; [|split].
      + cbn [with_out t_out]. destruct c; cbn; rewrite D1; reflexivity.
      + cbn [with_out t_out]. destruct c; reflexivity.
      + cbn [with_out t_out]. rewrite X. reflexivity. }
  destruct (a_revision_number ua) as [k|]; [destruct (find_uri (a_namespaces ua) DIFF_URI) as [d|]|].
  - destruct C as (b' & EX & ->). rewrite EX. cbn [obind orb]. apply (DONE (Some b')); reflexivity.
  - cbn [obind orb]. subst c. destruct b as [|b0 br]; cbn [negb]; [apply (DONE None)|apply (DONE (Some (b0 :: br)))]; reflexivity.
  - cbn [obind orb]. subst c. destruct b as [|b0 br]; cbn [negb]; [apply (DONE None)|apply (DONE (Some (b0 :: br)))]; reflexivity.
Qed.

(** ** The start of the document *)
Definition doc_start (a : archive) (attributes : list bytes) : bytes := xml_declaration a ++ instruction a ++ root_tag a attributes.
Lemma decl_ok : forall a o w, so_w o = Some w -> so_options o = a_options a -> so_depth o = 0 -> w_nodes w = Some [] ->
  so_encoding o = default_to (a_encoding a) (txt "UTF-8") ->
  xml_decl o = with_w o (Writer (w_out w ++ xml_declaration a) (w_nodes w) (w_intag w) (w_ns w)).
Proof.
  intros a o w W O D L E. unfold xml_decl, xml_declaration. rewrite O, D, N.eqb_refl. cbn [andb].
  destruct (opt (a_options a) B_NO_XML_DECL); cbn [negb].
  - rewrite app_nil_r. destruct w, o. cbn in *. subst. reflexivity.
  - unfold on_w. rewrite W. unfold start_document. rewrite L, E. reflexivity.
Qed.
Lemma prepare_ok : forall a m id mem s t r, create_trans m = Ok (t, r) -> am_a m = a -> am_buf m = Buffer id mem s ->
  let t' := prepare_output t in
  r = Some (id, mem) /\ t_first t = true /\ t_outputting t = false /\ so_options (t_out t) = a_options a /\
  matches t' a /\ t_first t' = false /\
  if is_archive a
  then so_depth (t_out t') = 1 /\ so_didwrite (t_out t') = true /\
       so_w (t_out t') = Some (macros_written (pairs_of (a_macros a))
         (Writer (s ++ doc_start a (am_attributes m)) (Some [element_name (root_namespaces a)]) true []))
  else so_depth (t_out t') = 0 /\ so_didwrite (t_out t') = (match a_pi a with Some _ => true | None => false end) /\
       so_w (t_out t') = Some (Writer (s ++ xml_declaration a ++ instruction a) (Some []) false []).
Proof.
  intros a m id mem s t r C A B. unfold create_trans in C. rewrite B in C. injection C as <- <-. rewrite A. cbn zeta.
  split; [reflexivity|].
  split; [reflexivity|]. split; [reflexivity|]. split; [reflexivity|].
  set (t := start_writer _ _). unfold prepare_output. change (t_first t) with true. cbn match.
  assert (E1 : xml_decl (t_out t) = with_w (t_out t) (Writer (s ++ xml_declaration a) (Some []) false [])) by (exact (decl_ok a (t_out t) (Writer s (Some []) false []) eq_refl eq_refl eq_refl eq_refl eq_refl)).
  set (dw := match a_pi a with Some _ => true | None => false end).
  assert (E2 : exists o, output_pi (xml_decl (t_out t)) = o /\ so_w o = Some (Writer (s ++ xml_declaration a ++ instruction a) (Some []) false []) /\
    so_depth o = 0 /\ so_options o = a_options a /\ so_tabs o = dec_of (a_tabstop a) /\ so_ns o = root_namespaces a /\ so_macros o = a_macros a /\ so_didwrite o = dw).
  { eexists. split; [reflexivity|]. rewrite E1. unfold output_pi. change (so_pi (with_w (t_out t) _)) with (a_pi a). unfold instruction, dw.
    destruct (a_pi a) as [[pt pd]|].
    - change (so_depth (with_w (t_out t) _) =? 0) with true. cbn match. unfold on_w. cbn [so_w with_w].
      split; [|repeat split; reflexivity]. unfold write_raw. rewrite close_closed. cbn [fst w_out w_nodes w_intag w_ns]. rewrite <- !app_assoc. reflexivity.
    - rewrite app_nil_r. split; [reflexivity|]. repeat split; reflexivity. }
  destruct E2 as (o & -> & W & D & O & TB & NS & MC & DW). rewrite O. fold (is_archive a).
  destruct (is_archive a).
  - set (g := TagArgs _ _ _ _ _ _ _ _ _ _).
    destruct (start_unit_ok o g _ [] W eq_refl) as (ns' & N' & E). rewrite E. rewrite close_closed. cbn [w_out w_ns].
    assert (ST : start_tag o g = root_tag a (am_attributes m)).
    { unfold root_tag. transitivity (start_tag (tag_settings a 0 (root_namespaces a)) g); [|reflexivity].
      apply start_tag_ext; cbn [so_options so_depth so_tabs so_ns tag_settings]; assumption. }
    rewrite ST, NS. change (g_macros g) with true. cbv beta iota. rewrite MC.
    rewrite (macros_ok _ _ (prefixed (prefix_at SRC (root_namespaces a)) (txt "unit")) []) by reflexivity.
    split; [|split; [reflexivity|]].
    + repeat split; cbn [t_out after_tag so_options so_tabs t_revision t_outputting]; try assumption; reflexivity.
    + cbn [t_out after_tag so_depth so_didwrite so_w]. rewrite D. split; [reflexivity|]. split; [reflexivity|].
      unfold doc_start. rewrite <- !app_assoc. reflexivity.
  - split; [|split; [reflexivity|]]; [|cbn [t_out]; repeat split; assumption].
    repeat split; cbn [t_out t_revision t_outputting]; try assumption; reflexivity.
Qed.
