(** Creating srcML: the settings of the output archive (C57). *)
From Verif Require Import Base Text_Model Text_Spec Text_Proofs3 Api_Model Api_Spec Api_Proofs Api_Proofs2 Api_Proofs3 Writer_Model Writer_Spec Writer_Proofs2 Archive_Model Archive_Spec Input_Model Create_Model Create_Spec Create_Proofs.
Local Open Scope N_scope.

(** ** The calls the client makes *)
Definition client_call (c : call) : Prop :=
  match c with SetOptions _ | DisableOption _ | RegisterMacro _ _ | SetRevision _ => False | _ => True end.
Definition sets_bit (b : N) (c : call) : bool :=
  match c with
  | EnableOption o => ((b <? 7) && N.testbit o b) || ((b =? 13) && N.testbit o 3)
  | RegisterNamespace (Some _) (Some u) =>
      if bytes_dec u CPP_URI then (b =? 3) || (b =? 13) else if bytes_dec u ERROR_URI then b =? 11 else if bytes_dec u POSITION_URI then b =? 2 else false
  | _ => false
  end.
Lemma bit_step : forall b a c, b <> 14 -> b <> 15 -> client_call c -> N.testbit (a_options (snd (step a c))) b = N.testbit (a_options a) b || sets_bit b c.
Proof.
  intros b a c H4 H5 A.
  assert (E4 : N.testbit OPT_ARCHIVE b = false) by (unfold OPT_ARCHIVE; rewrite pow2_bit; apply N.eqb_neq; exact H4).
  assert (E5 : N.testbit OPT_HASH b = false) by (unfold OPT_HASH; rewrite pow2_bit; apply N.eqb_neq; exact H5).
  destruct c as [k' v|o|o|o| | | | |n|[e|] [l|]|[p|] [u|]|t y|n]; cbn in A; try contradiction; cbn [sets_bit]; try (cbn [step snd a_options with_options with_extensions]; rewrite orb_false_r; reflexivity).
  - destruct k'; cbn; rewrite orb_false_r; reflexivity.
  - cbn [step snd a_options with_options]. rewrite N.lor_spec.
    assert (X : N.testbit (if N.testbit o 3 then N.lor (a_options a) OPT_CPP_DECLARED else a_options a) b = N.testbit (a_options a) b || ((b =? 13) && N.testbit o 3)).
    { destruct (N.testbit o 3); [rewrite N.lor_spec; unfold OPT_CPP_DECLARED; rewrite pow2_bit, andb_true_r; reflexivity|rewrite andb_false_r, orb_false_r; reflexivity]. }
    rewrite X. destruct (N.ltb_spec b 7) as [L|L]; [rewrite testbit_mod7 by exact L|rewrite testbit_mod7_high by exact L]; cbn [andb]; destruct (N.testbit (a_options a) b); destruct ((b =? 13) && N.testbit o 3); cbn [orb]; rewrite ?orb_true_r, ?orb_false_r; reflexivity.
  - cbn [step snd a_options with_options]. rewrite N.ldiff_spec, E4. cbn [negb]. rewrite andb_true_r, orb_false_r. reflexivity.
  - cbn [step snd a_options with_options]. rewrite N.lor_spec, E4. reflexivity.
  - cbn [step snd a_options with_options]. rewrite N.lor_spec, E5. reflexivity.
  - cbn [step snd a_options with_options]. rewrite N.ldiff_spec, E5. cbn [negb]. rewrite andb_true_r, orb_false_r. reflexivity.
  - cbn [step]. rewrite register_ns_bit. destruct (bytes_dec u CPP_URI); [rewrite orb_assoc; reflexivity|]. destruct (bytes_dec u ERROR_URI); [reflexivity|]. destruct (bytes_dec u POSITION_URI); [reflexivity|]. rewrite orb_false_r. reflexivity.
Qed.
Lemma bits_run : forall b, b <> 14 -> b <> 15 -> forall h a, Forall client_call h -> N.testbit (a_options (run h a)) b = N.testbit (a_options a) b || existsb (sets_bit b) h.
Proof.
  intros b H4 H5. induction h as [|c h IH]; intros a F; [cbn; rewrite orb_false_r; reflexivity|]. inversion F as [|x y F1 F2]; subst. unfold run. cbn [fold_left]. fold (run h (snd (step a c))).
  rewrite IH by exact F2. rewrite bit_step by assumption. cbn [existsb]. rewrite orb_assoc. reflexivity.
Qed.
Lemma rest_run : forall h a, Forall client_call h ->
  a_pi (run h a) = a_pi a /\ a_macros (run h a) = a_macros a /\ a_revision (run h a) = a_revision a /\ a_revision_number (run h a) = a_revision_number a.
Proof.
  induction h as [|c h IH]; intros a F; [repeat split|]. inversion F as [|x y F1 F2]; subst. unfold run. cbn [fold_left]. fold (run h (snd (step a c))).
  destruct (IH (snd (step a c)) F2) as (A & B & C & D). rewrite A, B, C, D.
  destruct c as [k' v|o|o|o| | | | |n|[e|] [l|]|[p|] [u|]|t y|n]; cbn in F1; try contradiction; try (repeat split; reflexivity). destruct k'; repeat split; reflexivity.
Qed.
Lemma client_settable : forall h, Forall client_call h -> Forall (fun c => ~ is_set_options c) h.
Proof. intros h F. eapply Forall_impl; [|exact F]. intros [] A B; cbn in *; contradiction. Qed.
Lemma testbit_solitary : forall a, N.testbit (a_options a) 14 = negb (is_solitary a).
Proof. intros a. unfold is_solitary, OPT_ARCHIVE. rewrite land_pow2, negb_involutive. reflexivity. Qed.
Lemma testbit_hash : forall a, N.testbit (a_options a) 15 = has_hash a.
Proof. intros a. unfold has_hash, OPT_HASH. rewrite land_pow2, negb_involutive. reflexivity. Qed.

(** ** The calls for the settings *)
Lemma url_client : forall r ins l, url_calls r ins = Ok l -> exists v, l = opt_attr AUrl v /\
  match c_url r, ins with
  | Some u, _ => v = Some (uri_resource u)
  | None, [s] => match in_archives s with [] => v = None | _ => v = skip_dots (uri_resource (in_filename s)) /\ v <> None end
  | None, _ => v = None
  end.
Proof.
  intros r ins l H. unfold url_calls in H. destruct (c_url r) as [u|]; [injection H as <-; exists (Some (uri_resource u)); split; reflexivity|].
  destruct ins as [|s [|s' ins]]; [injection H as <-; exists None; split; reflexivity| |injection H as <-; exists None; split; reflexivity].
  destruct (in_archives s); [injection H as <-; exists None; split; reflexivity|].
  destruct (skip_dots (uri_resource (in_filename s))) as [n|] eqn:E; [|discriminate H]. injection H as <-. exists (Some n). split; [reflexivity|]. split; [reflexivity|discriminate].
Qed.
Lemma skip_dots_ok : forall s v, skip_dots s = Some v -> exists lead c rest, s = lead ++ c :: rest /\ Forall (fun x => x = 46 \/ x = 47) lead /\ c <> 46 /\ c <> 47 /\ v = c :: rest.
Proof.
  induction s as [|c s IH]; intros v H; [discriminate H|]. cbn [skip_dots] in H. destruct (N.eqb_spec c 46) as [->|N1]; cbn [orb] in H.
  - destruct (IH _ H) as (l & d & r & -> & F & A & B & ->). exists (46 :: l), d, r. split; [reflexivity|]. split; [constructor; [left; reflexivity|exact F]|]. auto.
  - destruct (N.eqb_spec c 47) as [->|N2].
    + destruct (IH _ H) as (l & d & r & -> & F & A & B & ->). exists (47 :: l), d, r. split; [reflexivity|]. split; [constructor; [right; reflexivity|exact F]|]. auto.
    + injection H as <-. exists [], c, s. repeat split; auto.
Qed.
Definition shape_calls (r : crequest) (ins : list input_src) : list call := if lone r ins then [EnableSolitary; if c_hash r then EnableHash else DisableHash] else [DisableSolitary; EnableHash].
Definition flag_calls (r : crequest) : list call :=
    flag (c_archive r) DisableSolitary ++ flag (c_position r) (EnableOption (2 ^ 2)) ++ flag (c_cpp r) (EnableOption (2 ^ 3)) ++
    flag (c_if0 r) (EnableOption (2 ^ 5)) ++ flag (c_text_else r) (EnableOption (2 ^ 4)) ++ flag (c_no_decl r) (EnableOption (2 ^ 1)) ++
    flag (c_hash r) EnableHash.
Lemma setup_ok : forall r ins cs, setup r ins = Ok (Some cs) -> exists v, url_calls r ins = Ok (opt_attr AUrl v) /\
  cs = opt_attr XmlEncoding (c_xml_encoding r) ++ opt_attr SrcEncoding (c_src_encoding r) ++ opt_attr AUrl v ++ opt_attr AVersion (c_version r) ++
       flag_calls r ++ [SetAttr ALanguage (c_language r); SetTabstop (c_tabs r)] ++ shape_calls r ins ++ map ext_call (c_ext r) ++ map ns_call (c_xmlns r) /\
  (lone r ins = true \/ c_filename r = None) /\ all_ok archive_create cs = true.
Proof.
  intros r ins cs H. unfold setup, settings_calls in H. destruct (url_calls r ins) as [l|] eqn:U; [|discriminate H]. destruct (url_client _ _ _ U) as (v & -> & _). exists v. cbn [obind] in H.
  split; [reflexivity|]. unfold flag_calls, shape_calls. rewrite <- !app_assoc in *. set (big := opt_attr XmlEncoding _ ++ _) in *.
  destruct (negb (lone r ins) && _) eqn:N; [discriminate H|]. destruct (all_ok archive_create big) eqn:A; [|discriminate H]. injection H as <-. split; [reflexivity|]. split; [|exact A].
  destruct (lone r ins); [left; reflexivity|]. right. destruct (c_filename r); [discriminate N|reflexivity].
Qed.
Lemma early_client : forall c, early_call c -> client_call c.
Proof. intros c [[->| ->]|(n & ->)]; exact I. Qed.
Lemma ext_registers : forall e, exists x y, ext_call e = RegisterExtension (Some x) (Some y).
Proof. intros e. unfold ext_call. destruct (strchr e 61); eexists _, _; reflexivity. Qed.
Lemma opt_attr_client : forall k v, Forall client_call (opt_attr k v).
Proof. intros k [v|]; repeat constructor. Qed.
Lemma flag_all : forall (P : call -> Prop) b c, P c -> Forall P (flag b c).
Proof. intros P [] c H; repeat constructor. exact H. Qed.
Lemma flags_all : forall (P : call -> Prop) r, P DisableSolitary -> (forall o, P (EnableOption o)) -> P EnableHash -> Forall P (flag_calls r).
Proof. intros P r A1 A2 A3. unfold flag_calls. repeat (apply Forall_app; split); apply flag_all; auto. Qed.
Lemma flags_client : forall r, Forall client_call (flag_calls r).
Proof. intros r. apply flags_all; intros; exact I. Qed.
Lemma setup_client : forall r ins cs, setup r ins = Ok (Some cs) -> Forall client_call cs.
Proof.
  intros r ins cs H. destruct (setup_ok _ _ _ H) as (v & _ & -> & _). repeat first [apply flags_client | apply opt_attr_client | apply Forall_app; split].
  - repeat constructor.
  - unfold shape_calls. destruct (lone r ins), (c_hash r); repeat constructor.
  - apply Forall_map, Forall_forall. intros e _. destruct (ext_registers e) as (x & y & ->). exact I.
  - apply Forall_map, Forall_forall. intros e _. exact I.
Qed.
(** a history of the client: settings, then calls for the inputs *)
Lemma latest_none : forall {A B} (f : A -> option B) h, Forall (fun c => f c = None) h -> latest f h = None.
Proof. intros A B f h F. induction F as [|c h H F IH]; [reflexivity|]. cbn. rewrite IH. exact H. Qed.
Lemma early_none : forall {B} (f : call -> option B) h, Forall early_call h -> f DisableSolitary = None -> f EnableHash = None -> (forall n, f (ns_call n) = None) -> latest f h = None.
Proof. intros B f h F A1 A2 A3. apply latest_none. eapply Forall_impl; [|exact F]. intros c [[->| ->]|(n & ->)]; auto. Qed.
Lemma exts_none : forall {B} (f : call -> option B) l, (forall x y, f (RegisterExtension x y) = None) -> latest f (map ext_call l) = None.
Proof. intros B f l A. apply latest_none, Forall_map, Forall_forall. intros e _. destruct (ext_registers e) as (x & y & ->). apply A. Qed.
Lemma nss_none : forall {B} (f : call -> option B) l, (forall n, f (ns_call n) = None) -> latest f (map ns_call l) = None.
Proof. intros B f l A. apply latest_none, Forall_map, Forall_forall. intros e _. apply A. Qed.
Lemma flags_none : forall {B} (f : call -> option B) r, f DisableSolitary = None -> (forall o, f (EnableOption o) = None) -> f EnableHash = None -> latest f (flag_calls r) = None.
Proof.
  intros B f r A1 A2 A3. apply latest_none, flags_all; assumption.
Qed.
Lemma shape_none : forall {B} (f : call -> option B) r ins, f DisableSolitary = None -> f EnableSolitary = None -> f EnableHash = None -> f DisableHash = None -> latest f (shape_calls r ins) = None.
Proof. intros B f r ins A1 A2 A3 A4. apply latest_none. unfold shape_calls. destruct (lone r ins), (c_hash r); repeat constructor; assumption. Qed.
Lemma attr_none : forall {B} (f : call -> option B) k v, (forall v, f (SetAttr k v) = None) -> latest f (opt_attr k v) = None.
Proof. intros B f k [v|] A; cbn; [apply A|reflexivity]. Qed.
Local Opaque flag_calls opt_attr shape_calls.
Lemma attrs_ok : forall r ins cs L k, setup r ins = Ok (Some cs) -> Forall early_call L -> exists v, url_calls r ins = Ok (opt_attr AUrl v) /\
  get_attr (run (cs ++ L) archive_create) k =
  match k with SrcEncoding => c_src_encoding r | XmlEncoding => c_xml_encoding r | ALanguage => c_language r | AVersion => c_version r | AUrl => v end.
Proof.
  intros r ins cs L k H F. destruct (setup_ok _ _ _ H) as (v & U & -> & _). exists v. split; [exact U|]. rewrite attr_history, latest_app, (early_none (sets k) L F) by (intros; reflexivity).
  assert (O : forall j x, latest (sets k) (opt_attr j x) = match x with Some _ => sets k (SetAttr j x) | None => None end) by (intros j [x|]; reflexivity).
  rewrite !latest_app, !O, exts_none, nss_none, flags_none, shape_none by reflexivity. destruct k; cbn [latest sets]; destruct (c_xml_encoding r), (c_src_encoding r), v, (c_version r); reflexivity.
Qed.
Lemma tabs_ok : forall r ins cs L, setup r ins = Ok (Some cs) -> Forall early_call L -> a_tabstop (run (cs ++ L) archive_create) = c_tabs r.
Proof.
  intros r ins cs L H F. destruct (setup_ok _ _ _ H) as (v & U & -> & _). rewrite tabstop_history, latest_app, (early_none sets_tabstop L F) by (intros; reflexivity). rewrite !latest_app, exts_none, nss_none, shape_none by reflexivity. reflexivity.
Qed.
Local Transparent flag_calls opt_attr shape_calls.
(** *** Bits *)
Lemma sets_early : forall b L, b <> 14 -> b <> 15 -> Forall early_call L -> existsb (sets_bit b) L =
  (((b =? 3) || (b =? 13)) && has_uri CPP_URI (ns_regs L)) || ((b =? 11) && has_uri ERROR_URI (ns_regs L)) || ((b =? 2) && has_uri POSITION_URI (ns_regs L)).
Proof.
  intros b L H4 H5 F. induction F as [|c L H F IH]; [cbn; rewrite !andb_false_r; reflexivity|]. cbn [existsb ns_regs flat_map].
  fold (ns_regs L). rewrite IH. destruct H as [[->| ->]|([p u] & ->)]; cbn [sets_bit ns_call app fst snd]; try reflexivity.
  unfold has_uri. cbn [existsb fst]. rewrite !beqb_dec.
  destruct (bytes_dec u CPP_URI) as [->|N1].
  - destruct (bytes_dec CPP_URI CPP_URI) as [_|]; [|contradiction]. destruct (bytes_dec ERROR_URI CPP_URI); [discriminate|]. destruct (bytes_dec POSITION_URI CPP_URI); [discriminate|]. cbn [orb].
    rewrite andb_true_r. destruct ((b =? 3) || (b =? 13)); reflexivity.
  - destruct (bytes_dec CPP_URI u) as [E|_]; [congruence|]. destruct (bytes_dec u ERROR_URI) as [->|N2].
    + destruct (bytes_dec ERROR_URI ERROR_URI) as [_|]; [|contradiction]. destruct (bytes_dec POSITION_URI ERROR_URI); [discriminate|]. cbn [orb]. rewrite andb_true_r.
      destruct (b =? 11); cbn [orb andb]; rewrite ?orb_true_r; reflexivity.
    + destruct (bytes_dec ERROR_URI u) as [E|_]; [congruence|]. destruct (bytes_dec u POSITION_URI) as [->|N3].
      * destruct (bytes_dec POSITION_URI POSITION_URI) as [_|]; [|contradiction]. cbn [orb]. rewrite andb_true_r. destruct (b =? 2); cbn [orb andb]; rewrite ?orb_true_r; reflexivity.
      * destruct (bytes_dec POSITION_URI u) as [E|_]; [congruence|]. reflexivity.
Qed.
Lemma sets_flags : forall r b, existsb (sets_bit b) (flag_calls r) =
  ((b =? 2) && c_position r) || (((b =? 3) || (b =? 13)) && c_cpp r) || ((b =? 5) && c_if0 r) || ((b =? 4) && c_text_else r) || ((b =? 1) && c_no_decl r).
Proof.
  intros r b. unfold flag_calls. rewrite !existsb_app.
  assert (A : forall f x, existsb (sets_bit b) (flag f x) = f && sets_bit b x) by (intros [] x; cbn; rewrite ?orb_false_r; reflexivity). rewrite !A. cbn [sets_bit].
  assert (B : forall j, j < 7 -> ((b <? 7) && N.testbit (2 ^ j) b) || ((b =? 13) && N.testbit (2 ^ j) 3) = (b =? j) || ((b =? 13) && (3 =? j))).
  { intros j J. rewrite !pow2_bit. destruct (N.eqb_spec b j) as [->|NE]; [|rewrite andb_false_r; reflexivity]. apply N.ltb_lt in J. rewrite J. reflexivity. }
  rewrite (B 2), (B 3), (B 5), (B 4), (B 1) by reflexivity.
  change (3 =? 2) with false. change (3 =? 3) with true. change (3 =? 5) with false. change (3 =? 4) with false. change (3 =? 1) with false.
  generalize (b =? 2), (b =? 3), (b =? 13), (b =? 5), (b =? 4), (b =? 1), (c_position r), (c_cpp r), (c_if0 r), (c_text_else r), (c_no_decl r), (c_archive r), (c_hash r).
  intros b2 b3 b13 b5 b4 b1 p c i t n x y. destruct p, c, i, t, n, x, y; cbn [andb orb]; destruct b2, b3, b13, b5, b4, b1; reflexivity.
Qed.
Lemma no_bits : forall b h, Forall (fun c => sets_bit b c = false) h -> existsb (sets_bit b) h = false.
Proof. intros b h F. induction F as [|c h H F IH]; [reflexivity|]. cbn. rewrite H. exact IH. Qed.
Lemma ns_early : forall l, Forall early_call (map ns_call l).
Proof. intros l. apply Forall_map, Forall_forall. intros n _. right. exists n. reflexivity. Qed.
Lemma ns_regs_app : forall x y, ns_regs (x ++ y) = ns_regs x ++ ns_regs y.
Proof. intros x y. unfold ns_regs. apply flat_map_app. Qed.
Lemma ns_regs_ns : forall l, ns_regs (map ns_call l) = map (fun n => (snd n, fst n)) l.
Proof. induction l as [|n l IH]; [reflexivity|]. cbn [map ns_regs flat_map ns_call app]. fold (ns_regs (map ns_call l)). rewrite IH. reflexivity. Qed.
Lemma ns_regs_none : forall h, Forall (fun c => match c with RegisterNamespace _ _ => False | _ => True end) h -> ns_regs h = [].
Proof. intros h F. induction F as [|c h H F IH]; [reflexivity|]. cbn [ns_regs flat_map]. fold (ns_regs h). rewrite IH. destruct c; reflexivity || contradiction. Qed.
Lemma setup_regs : forall r ins cs, setup r ins = Ok (Some cs) -> ns_regs cs = map (fun n => (snd n, fst n)) (c_xmlns r).
Proof.
  intros r ins cs H. destruct (setup_ok _ _ _ H) as (v & U & -> & _). rewrite !ns_regs_app, ns_regs_ns.
  assert (E : forall h, Forall (fun c => match c with RegisterNamespace _ _ => False | _ => True end) h -> ns_regs h = []) by exact ns_regs_none.
  rewrite (E (opt_attr XmlEncoding (c_xml_encoding r))), (E (opt_attr SrcEncoding (c_src_encoding r))), (E (opt_attr AUrl v)), (E (opt_attr AVersion (c_version r))), (E (flag_calls r)), (E (shape_calls r ins)), (E (map ext_call (c_ext r))); [reflexivity| | | | | | |].
  - apply Forall_map, Forall_forall. intros e _. destruct (ext_registers e) as (x & y & ->). exact I.
  - unfold shape_calls. destruct (lone r ins), (c_hash r); repeat constructor.
  - apply flags_all; intros; exact I.
  - destruct (c_version r); repeat constructor.
  - destruct v; repeat constructor.
  - destruct (c_src_encoding r); repeat constructor.
  - destruct (c_xml_encoding r); repeat constructor.
Qed.
Lemma has_uri_app : forall u x y, has_uri u (x ++ y) = has_uri u x || has_uri u y.
Proof. intros u x y. unfold has_uri. apply existsb_app. Qed.
Lemma low_bits : forall r ins cs L b, setup r ins = Ok (Some cs) -> Forall early_call L -> b <> 14 -> b <> 15 ->
  N.testbit (a_options (run (cs ++ L) archive_create)) b =
  let regs := map (fun n => (snd n, fst n)) (c_xmlns r) ++ ns_regs L in
  if b =? 1 then c_no_decl r else if b =? 2 then c_position r || has_uri POSITION_URI regs else if b =? 3 then c_cpp r || has_uri CPP_URI regs
  else if b =? 4 then c_text_else r else if b =? 5 then c_if0 r else if b =? 8 then true else if b =? 11 then has_uri ERROR_URI regs
  else if b =? 13 then c_cpp r || has_uri CPP_URI regs else false.
Proof.
  intros r ins cs L b H F H4 H5. rewrite bits_run; [|assumption|assumption|apply Forall_app; split; [apply (setup_client _ _ _ H)|eapply Forall_impl; [apply early_client|exact F]]].
  rewrite existsb_app, (sets_early b L H4 H5 F). destruct (setup_ok _ _ _ H) as (v & U & E & _). rewrite E. rewrite !existsb_app, sets_flags, (sets_early b _ H4 H5 (ns_early (c_xmlns r))), ns_regs_ns.
  rewrite (no_bits b (opt_attr XmlEncoding (c_xml_encoding r))) by (destruct (c_xml_encoding r); repeat constructor).
  rewrite (no_bits b (opt_attr SrcEncoding (c_src_encoding r))) by (destruct (c_src_encoding r); repeat constructor).
  rewrite (no_bits b (opt_attr AUrl v)) by (destruct v; repeat constructor).
  rewrite (no_bits b (opt_attr AVersion (c_version r))) by (destruct (c_version r); repeat constructor).
  rewrite (no_bits b [SetAttr ALanguage (c_language r); SetTabstop (c_tabs r)]) by repeat constructor.
  rewrite (no_bits b (shape_calls r ins)) by (unfold shape_calls; destruct (lone r ins), (c_hash r); repeat constructor).
  rewrite (no_bits b (map ext_call (c_ext r))) by (apply Forall_map, Forall_forall; intros e _; destruct (ext_registers e) as (x & y & ->); reflexivity).
  cbv zeta. rewrite !has_uri_app. set (R := map _ (c_xmlns r)). cbn [orb]. clear E H U.
  assert (O : N.testbit (a_options archive_create) b = (b =? 14) || (b =? 15) || (b =? 8)).
  { unfold archive_create. cbn [a_options]. unfold OPT_DEFAULT, OPT_ARCHIVE, OPT_HASH, OPT_NAMESPACE_DECL. rewrite !N.lor_spec, !pow2_bit. reflexivity. }
  rewrite O. rewrite (proj2 (N.eqb_neq b 14) H4), (proj2 (N.eqb_neq b 15) H5). cbn [orb].
  destruct (N.eqb_spec b 1) as [->|]; [cbn; rewrite ?orb_false_r; reflexivity|].
  destruct (N.eqb_spec b 2) as [->|]; [cbn; rewrite ?orb_false_r, ?orb_assoc; reflexivity|].
  destruct (N.eqb_spec b 3) as [->|]; [cbn; rewrite ?orb_false_r, ?orb_assoc; reflexivity|].
  destruct (N.eqb_spec b 4) as [->|]; [cbn; rewrite ?orb_false_r, ?orb_assoc; reflexivity|].
  destruct (N.eqb_spec b 5) as [->|]; [cbn; rewrite ?orb_false_r, ?orb_assoc; reflexivity|].
  destruct (N.eqb_spec b 8) as [->|]; [reflexivity|].
  destruct (N.eqb_spec b 11) as [->|]; [cbn; rewrite ?orb_false_r, ?orb_assoc; reflexivity|].
  destruct (N.eqb_spec b 13) as [->|]; [cbn; rewrite ?orb_false_r, ?orb_assoc; reflexivity|]. reflexivity.
Qed.
(** *** Archive and hash *)
Lemma latest_shape : forall r ins cs, setup r ins = Ok (Some cs) ->
  latest solitary_effect cs = Some (lone r ins) /\ latest hash_effect cs = Some (negb (lone r ins) || c_hash r).
Proof.
  intros r ins cs H. destruct (setup_ok _ _ _ H) as (v & U & -> & _). split.
  - rewrite !latest_app, exts_none, nss_none by reflexivity. unfold shape_calls. destruct (lone r ins); [destruct (c_hash r)|]; reflexivity.
  - rewrite !latest_app, exts_none, nss_none by reflexivity. unfold shape_calls. destruct (lone r ins); [destruct (c_hash r)|]; reflexivity.
Qed.
Lemma early_solitary : forall L, Forall early_call L -> latest solitary_effect L = if existsb (fun c => match c with DisableSolitary => true | _ => false end) L then Some false else None.
Proof.
  intros L F. induction F as [|c L H F IH]; [reflexivity|]. cbn [latest existsb]. rewrite IH. destruct (existsb _ L); [rewrite orb_true_r; reflexivity|]. rewrite orb_false_r. destruct H as [[->| ->]|([p u] & ->)]; reflexivity.
Qed.
Lemma early_hash : forall L, Forall early_call L -> latest hash_effect L = if existsb (fun c => match c with EnableHash => true | _ => false end) L then Some true else None.
Proof.
  intros L F. induction F as [|c L H F IH]; [reflexivity|]. cbn [latest existsb]. rewrite IH. destruct (existsb _ L); [rewrite orb_true_r; reflexivity|]. rewrite orb_false_r. destruct H as [[->| ->]|([p u] & ->)]; reflexivity.
Qed.
Definition disables (L : list call) : bool := existsb (fun c => match c with DisableSolitary => true | _ => false end) L.
Definition hashes (L : list call) : bool := existsb (fun c => match c with EnableHash => true | _ => false end) L.
Lemma shape_bits : forall r ins cs L, setup r ins = Ok (Some cs) -> Forall early_call L -> let a := run (cs ++ L) archive_create in
  N.testbit (a_options a) 14 = negb (lone r ins) || disables L /\ N.testbit (a_options a) 15 = negb (lone r ins) || c_hash r || hashes L.
Proof.
  intros r ins cs L H F a. destruct (latest_shape _ _ _ H) as [S1 S2].
  assert (C : Forall client_call (cs ++ L)) by (apply Forall_app; split; [apply (setup_client _ _ _ H)|eapply Forall_impl; [apply early_client|exact F]]).
  destruct (internal_history _ (client_settable _ C)) as [I1 I2]. fold a in I1, I2. rewrite testbit_solitary, testbit_hash, I1, I2, !latest_app, (early_solitary L F), (early_hash L F), S1, S2.
  unfold disables, hashes. split; destruct (existsb _ L); cbn [dflt negb]; rewrite ?orb_true_r, ?orb_false_r; reflexivity.
Qed.
Local Transparent opt_attr.
(** extensions *)
Lemma ext_maps : forall e, exists x l, ext_call e = RegisterExtension (Some x) (Some l) /\ maps e x l /\ forall x' l', maps e x' l' -> x' = x /\ l' = l.
Proof.
  intros e. destruct (in_dec N.eq_dec 61 e) as [I|N].
  - assert (X : exists a b, e = a ++ 61 :: b /\ no_byte 61 a).
    { clear -I. induction e as [|c e IH]; [contradiction|]. destruct (N.eq_dec c 61) as [->|D]; [exists [], e; split; [reflexivity|constructor]|].
      destruct I as [I|I]; [congruence|]. destruct (IH I) as (a & b & -> & F). exists (c :: a), b. split; [reflexivity|]. constructor; assumption. }
    destruct X as (a & b & -> & F). exists a, b. unfold ext_call. rewrite strchr_app by exact F. split.
    { f_equal; f_equal; [rewrite firstn_app, Nat.sub_diag, firstn_all; cbn; apply app_nil_r|]. rewrite skipn_app, skipn_all2 by auto. replace (S (length a) - length a)%nat with 1%nat by lia. reflexivity. }
    split; [left; split; [exact F|reflexivity]|]. intros x' l' [[F' E]|[F' _]].
    + assert (L : length x' = length a) by (assert (A1 := strchr_app a 61 b F); assert (A2 := strchr_app x' 61 l' F'); cbn [app] in E; rewrite E, A2 in A1; injection A1 as ->; reflexivity).
      revert E. cbn [app]. intros E. assert (A1 : firstn (length a) (a ++ 61 :: b) = firstn (length x') (x' ++ 61 :: l')) by (rewrite L, E; reflexivity).
      rewrite !firstn_app, !Nat.sub_diag, !firstn_all in A1. cbn in A1. rewrite !app_nil_r in A1. subst x'. apply app_inv_head in E. injection E as ->. split; reflexivity.
    + exfalso. unfold no_byte in F'. rewrite Forall_forall in F'. apply (F' 61 ltac:(apply in_or_app; right; left; reflexivity)). reflexivity.
  - assert (F : no_byte 61 e) by (apply Forall_forall; intros c C E; subst; contradiction). exists e, e. unfold ext_call. rewrite strchr_none by exact F. split; [reflexivity|]. split; [right; auto|].
    intros x' l' [[F' E]|(_ & <- & <-)]; [|split; reflexivity]. exfalso. apply N. rewrite E. apply in_or_app. right. left. reflexivity.
Qed.
Lemma all_ok_in : forall cs c a, all_ok a cs = true -> In c cs -> exists b, fst (step b c) = ST_OK.
Proof.
  induction cs as [|d cs IH]; intros c a H I; [contradiction|]. cbn [all_ok] in H. destruct (fst (step a d)) eqn:E; try discriminate H.
  destruct I as [->|I]; [exists a; exact E|exact (IH _ _ H I)].
Qed.
Lemma last_ext : forall ext l, Forall (fun e => forall x y, maps e x y -> In y languages) l ->
  (exists pre e post y, l = pre ++ e :: post /\ maps e ext y /\ (forall e' l', In e' post -> ~ maps e' ext l') /\ latest (registers ext) (map ext_call l) = Some y) \/
  ((forall e y, In e l -> ~ maps e ext y) /\ latest (registers ext) (map ext_call l) = None).
Proof.
  intros ext l F. induction F as [|e l H F IH]; [right; split; [intros e y []|reflexivity]|]. cbn [map latest].
  destruct IH as [(pre & e' & post & y & -> & M & P & ->)|[P ->]]; [left; exists (e :: pre), e', post, y; repeat split; assumption|].
  destruct (ext_maps e) as (x & y & E & M & U). rewrite E. unfold registers. destruct (bytes_dec x ext) as [->|D].
  - destruct (in_dec bytes_dec y languages) as [L|L]; [|exfalso; exact (L (H _ _ M))]. left. exists [], e, l, y. repeat split; auto.
  - right. split; [|reflexivity]. intros e' y' [<-|I] X; [|exact (P _ _ I X)]. destruct (U _ _ X) as [-> _]. congruence.
Qed.
Lemma extensions_ok : forall r ins cs L f ext, setup r ins = Ok (Some cs) -> Forall early_call L -> extension_of f ext ->
  (exists pre e post l, c_ext r = pre ++ e :: post /\ maps e ext l /\ (forall e' l', In e' post -> ~ maps e' ext l') /\ check_extension (run (cs ++ L) archive_create) f = Ok (Some l)) \/
  ((forall e l, In e (c_ext r) -> ~ maps e ext l) /\ check_extension (run (cs ++ L) archive_create) f = Ok (builtin ext)).
Proof.
  intros r ins cs L f ext H F X. destruct (setup_ok _ _ _ H) as (v & _ & C & _ & A).
  assert (Q : Forall (fun e => forall x y, maps e x y -> In y languages) (c_ext r)).
  { apply Forall_forall. intros e I x y M. destruct (ext_maps e) as (x' & y' & E & _ & U). destruct (U _ _ M) as [-> ->].
    assert (J : In (ext_call e) cs) by (rewrite C; do 7 (apply in_or_app; right); apply in_or_app; left; apply in_map; exact I). destruct (all_ok_in _ _ _ A J) as (b & O). rewrite E, register_status in O.
    destruct (in_dec bytes_dec y' languages) as [D|D]; [exact D|discriminate O]. }
  assert (R : check_extension (run (cs ++ L) archive_create) f = Ok (or_else (latest (registers ext) (map ext_call (c_ext r))) (builtin ext))).
  { rewrite (extension_history (cs ++ L) ext f X). f_equal. f_equal. rewrite latest_app, (early_none (registers ext) L F) by (intros; reflexivity). rewrite C, !latest_app.
    rewrite (nss_none (registers ext)) by (intros; reflexivity). cbn [or_else]. destruct (latest (registers ext) (map ext_call (c_ext r))); [reflexivity|].
    rewrite (shape_none (registers ext)), (flags_none (registers ext)), !(attr_none (registers ext)) by (intros; reflexivity). reflexivity. }
  rewrite R. destruct (last_ext ext (c_ext r) Q) as [(pre & e & post & y & E & M & P & ->)|[P ->]]; [left; exists pre, e, post, y; repeat split; assumption|right; split; [exact P|reflexivity]].
Qed.
(** the whole of the settings *)
Lemma settings_asked : forall r ins cs L, setup r (map fst ins) = Ok (Some cs) -> Forall early_call L ->
  ns_regs L = (if c_output_xml r then flat_map (input_namespaces r) (all_leaves ins) else []) ->
  negb (lone r (map fst ins)) || disables L = as_archive r ins -> negb (lone r (map fst ins)) || c_hash r || hashes L = with_hash r ins ->
  requested r ins (run (cs ++ L) archive_create).
Proof.
  intros r ins cs L H F NS AA WH. set (a := run (cs ++ L) archive_create).
  destruct (attrs_ok _ _ _ L XmlEncoding H F) as (_ & _ & A1). destruct (attrs_ok _ _ _ L SrcEncoding H F) as (_ & _ & A2). destruct (attrs_ok _ _ _ L ALanguage H F) as (_ & _ & A3).
  destruct (attrs_ok _ _ _ L AVersion H F) as (_ & _ & A4). destruct (attrs_ok _ _ _ L AUrl H F) as (v & U & A5).
  assert (C : Forall client_call (cs ++ L)) by (apply Forall_app; split; [apply (setup_client _ _ _ H)|eapply Forall_impl; [apply early_client|exact F]]).
  destruct (rest_run _ archive_create C) as (R1 & R2 & R3 & R4).
  assert (REG : ns_regs (cs ++ L) = registered r ins) by (rewrite ns_regs_app, (setup_regs _ _ _ H), NS; reflexivity).
  constructor; fold a; try assumption.
  - cbn [get_attr] in A5. fold a in A5. rewrite A5. destruct (url_client _ _ _ U) as (v' & E & V). assert (v' = v) by (destruct v, v'; cbn in E; congruence). subst v'.
    unfold is_url. destruct (c_url r) as [u|]; [exact V|]. destruct ins as [|[s i] [|x ins]]; cbn [map fst] in V; try exact V.
    destruct (in_archives s); [exact V|]. destruct V as [V1 V2]. destruct v as [v|]; [|contradiction]. symmetry in V1. destruct (skip_dots_ok _ _ V1) as (lead & c & rest & P1 & P2 & P3 & P4 & P5).
    exists lead, c, rest. repeat split; try assumption. rewrite P5. reflexivity.
  - apply (tabs_ok _ _ _ L H F).
  - intros b. destruct (shape_bits _ _ _ L H F) as [B1 B2]. fold a in B1, B2. unfold option_bit.
    destruct (N.eqb_spec b 14) as [->|N4]; [cbn; rewrite B1; exact AA|]. destruct (N.eqb_spec b 15) as [->|N5]; [cbn; rewrite B2; exact WH|].
    unfold a. rewrite (low_bits _ _ _ L b H F N4 N5). cbv zeta. rewrite NS. reflexivity.
  - intros u. unfold a. rewrite Api_Proofs3.prefix_ok, REG. reflexivity.
  - unfold a. destruct (uris_ok (cs ++ L)) as [UU _]. rewrite UU, REG. reflexivity.
  - intros f ext X. apply (extensions_ok _ _ _ L f ext H F X).
  - unfold a. rewrite R1, R2, R3, R4. repeat split.
Qed.
