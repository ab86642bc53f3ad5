(** The global settings after a history of global setters. *)
From Verif Require Properties_Api.
From Verif Require Import Base Text_Model Text_Spec Text_Proofs Api_Model Api_Spec Api_Proofs Api_Proofs2 Writer_Model Writer_Spec Archive_Model Archive_Spec Root_Spec Global_Model Global_Spec.
Local Open Scope N_scope.

Definition with_pi (a : archive) (p : option (bytes * bytes)) : archive :=
  Archive (a_src_encoding a) (a_encoding a) (a_language a) (a_url a) (a_version a) (a_revision a)
      (a_options a) (a_tabstop a) (a_namespaces a) p (a_extensions a) (a_macros a) (a_revision_number a).
(** the global archive, as an archive with the same history of calls, but for the registry and the instruction *)
Definition outfit (b : archive) (r : registry) (p : option (bytes * bytes)) : archive := with_pi (with_extensions b r) p.
Lemma step_outfit : forall b r p c, ~ (exists t y, c = RegisterMacro t y) ->
  Api_Model.step (outfit b r p) c = (fst (Api_Model.step b c), outfit (snd (Api_Model.step b c)) (r ++ ext_entry c) p).
Proof.
  intros b r p c M. assert (X : forall e l, fst (register_name r e l) = fst (register_name (a_extensions b) e l)) by (intros e l; unfold register_name; destruct (getLanguage l =? 0); reflexivity).
  destruct c as [k v|o|o|o| | | | |n|[e|] [l|]|[q|] [u|]|t y|n]; cbn [ext_entry]; try rewrite app_nil_r; try reflexivity.
  - destruct k; reflexivity.
  - cbn [Api_Model.step fst snd]. unfold outfit at 1. cbn [a_extensions with_pi with_extensions]. rewrite X. f_equal.
    unfold register_name, register_int. destruct (getLanguage l =? 0) eqn:Z; cbn [fst snd]; [rewrite app_nil_r; reflexivity|rewrite ?Z; reflexivity].
  - exfalso. apply M. eauto.
  - cbn [Api_Model.step]. destruct ((n =? 0) || (n =? 1)); reflexivity.
Qed.
Lemma archive_calls_app : forall h k, flat_map archive_call (h ++ k) = flat_map archive_call h ++ flat_map archive_call k.
Proof. intros. apply flat_map_app. Qed.
(** one setter *)
Lemma gstep_outfit : forall b r p u e c, defined c -> exists st, gstep (Globals (outfit b r p) u e) c =
  Ok (st, Globals (outfit (Api_Model.run (archive_call c) b) (r ++ flat_map ext_entry (archive_call c)) (match instruction_set c with Some i => Some i | None => p end))
                  (Api_Model.urun (unit_call c) u) e).
Proof.
  intros b r p u e c D.
  assert (SO : forall x, ~ (exists t y, x = RegisterMacro t y) -> archive_call c = [x] -> instruction_set c = None -> unit_call c = [] ->
    gstep (Globals (outfit b r p) u e) c = Ok (on_archive (Globals (outfit b r p) u e) (Api_Model.step (outfit b r p) x)) ->
    exists st, gstep (Globals (outfit b r p) u e) c = Ok (st, Globals (outfit (Api_Model.run (archive_call c) b) (r ++ flat_map ext_entry (archive_call c)) (match instruction_set c with Some i => Some i | None => p end))
                  (Api_Model.urun (unit_call c) u) e)).
  { intros x M A I U G. rewrite G, A, I, U, (step_outfit _ _ _ _ M). eexists. unfold on_archive. cbn [fst snd g_unit g_error flat_map Api_Model.run fold_left Api_Model.urun]. rewrite app_nil_r. reflexivity. }
  destruct c as [k v|v|v|n|o|o|o|n|x l|q w|t d|n].
  all: try (eapply SO; [| reflexivity| reflexivity| reflexivity| reflexivity]; intros (? & ? & E); discriminate E).
  - eexists. cbn [gstep archive_call flat_map Api_Model.run fold_left]. rewrite app_nil_r. reflexivity.
  - eexists. cbn [gstep archive_call flat_map Api_Model.run fold_left]. rewrite app_nil_r. reflexivity.
  - eexists. cbn [gstep archive_call flat_map Api_Model.run fold_left]. rewrite app_nil_r. reflexivity.
  - destruct t as [t|], d as [d|]; try contradiction. eexists. cbn [gstep set_processing_instruction obind archive_call flat_map Api_Model.run fold_left]. rewrite app_nil_r. reflexivity.
Qed.
Lemma grun_outfit : forall h b r p u e, Forall defined h -> exists rs, grun (Globals (outfit b r p) u e) h =
  Ok (rs, Globals (outfit (Api_Model.run (flat_map archive_call h) b) (r ++ flat_map ext_entry (flat_map archive_call h)) (match latest instruction_set h with Some i => Some i | None => p end))
                  (Api_Model.urun (flat_map unit_call h) u) e).
Proof.
  induction h as [|c h IH]; intros b r p u e D.
  - exists []. cbn. rewrite app_nil_r. reflexivity.
  - inversion D as [|? ? D1 D2]; subst. cbn [grun flat_map latest]. destruct (gstep_outfit b r p u e c D1) as (st & ->). cbn [obind fst snd].
    destruct (IH (Api_Model.run (archive_call c) b) (r ++ flat_map ext_entry (archive_call c)) (match instruction_set c with Some i => Some i | None => p end) (Api_Model.urun (unit_call c) u) e D2) as (rs & ->).
    cbn [obind fst snd]. eexists. rewrite flat_map_app, app_assoc, run_app. unfold Api_Model.urun. rewrite fold_left_app. destruct (latest instruction_set h); reflexivity.
Qed.
Lemma run_defined : forall h g rs g', grun g h = Ok (rs, g') -> Forall defined h.
Proof.
  induction h as [|c h IH]; intros g rs g' E; [constructor|]. cbn [grun] in E. destruct (gstep g c) as [[st g1]|] eqn:S; [|discriminate E]. cbn [obind fst snd] in E.
  destruct (grun g1 h) as [[q g2]|] eqn:G; [|discriminate E]. constructor; [|exact (IH _ _ _ G)].
  destruct c as [ | | | | | | | | | |[t|] [d|]| ]; try exact I; discriminate S.
Qed.
Lemma initial_outfit : initial = Globals (outfit archive_create standard_extensions None) unit_create [].
Proof. reflexivity. Qed.
(** the registry found is the same *)
Lemma languages_alike : forall x f, language_from_filename (standard_extensions ++ x) f = language_from_filename ((standard_extensions ++ standard_extensions) ++ x) f.
Proof.
  intros x f. unfold language_from_filename. destruct (get_language_extension f) as [ext|]; [|reflexivity]. rewrite !search_ok by lia. rewrite !firstn_all, !latest_app.
  destruct (latest (hit ext) x); [reflexivity|]. destruct (latest (hit ext) standard_extensions) eqn:E; reflexivity.
Qed.
Lemma global_archive_is : forall h rs g, grun initial h = Ok (rs, g) ->
  g = Globals (outfit (Api_Model.run (flat_map archive_call h) archive_create) (standard_extensions ++ flat_map ext_entry (flat_map archive_call h)) (latest instruction_set h))
              (Api_Model.urun (flat_map unit_call h) unit_create) [].
Proof.
  intros h rs g G. pose proof (run_defined _ _ _ _ G) as D. rewrite initial_outfit in G. destruct (grun_outfit h archive_create standard_extensions None unit_create [] D) as (q & E). rewrite G in E.
  injection E as _ ->. destruct (latest instruction_set h); reflexivity.
Qed.
Lemma check_alike : forall h f, check_extension (outfit (Api_Model.run h archive_create) (standard_extensions ++ flat_map ext_entry h) None) f = check_extension (Api_Model.run h archive_create) f.
Proof. intros h f. unfold check_extension. rewrite run_ext. change (a_extensions (outfit _ ?r _)) with r. rewrite languages_alike. reflexivity. Qed.
Lemma settings_alike : forall h rs g, grun initial h = Ok (rs, g) ->
  alike (g_archive g) (Api_Model.run (flat_map archive_call h) archive_create) /\ a_pi (g_archive g) = latest instruction_set h /\
  g_unit g = Api_Model.urun (flat_map unit_call h) unit_create /\ g_error g = [].
Proof.
  intros h rs g G. rewrite (global_archive_is _ _ _ G). cbn [g_archive g_unit g_error]. split; [|auto].
  split; [intros []; reflexivity|]. repeat (split; [reflexivity|]). intros f. apply check_alike.
Qed.
Lemma setters_defined : forall h, Forall defined h -> exists rs g, grun initial h = Ok (rs, g).
Proof. intros h D. rewrite initial_outfit. destruct (grun_outfit h archive_create standard_extensions None unit_create [] D) as (q & E). eauto. Qed.

(** what was set last *)
Lemma latest_flat : forall {A B C} (f : B -> option C) (k : A -> list B) (g : A -> option C), (forall c, latest f (k c) = g c) -> forall h, latest f (flat_map k h) = latest g h.
Proof.
  intros A B C f k g E h. induction h as [|c h IH]; [reflexivity|]. cbn [flat_map latest]. rewrite latest_app, IH, E. reflexivity.
Qed.
Lemma attr_is : forall k h rs g, grun initial h = Ok (rs, g) -> get_attr (g_archive g) k = attr_set k h.
Proof.
  intros k h rs g G. destruct (settings_alike _ _ _ G) as ((A & _) & _). rewrite A, attr_history. unfold attr_set, last_set.
  rewrite (latest_flat (sets k) archive_call (fun c => match c with GAttr k' v => if same_attr k k' then Some v else None | _ => None end)).
  - destruct (latest _ h); [reflexivity|destruct k; reflexivity].
  - intros []; reflexivity.
Qed.
Lemma filename_is : forall h rs g, grun initial h = Ok (rs, g) -> u_filename (g_unit g) = filename_set h.
Proof.
  intros h rs g G. destruct (settings_alike _ _ _ G) as (_ & _ & U & _). rewrite U. change (u_filename ?x) with (uget x UFilename). rewrite uattr_history. unfold filename_set, last_set.
  rewrite (latest_flat (usets UFilename) unit_call (fun c => match c with GFilename v => Some v | _ => None end)); [reflexivity|]. intros []; reflexivity.
Qed.
Lemma timestamp_is : forall h rs g, grun initial h = Ok (rs, g) -> u_timestamp (g_unit g) = timestamp_set h.
Proof.
  intros h rs g G. destruct (settings_alike _ _ _ G) as (_ & _ & U & _). rewrite U. change (u_timestamp ?x) with (uget x UTimestamp). rewrite uattr_history. unfold timestamp_set, last_set.
  rewrite (latest_flat (usets UTimestamp) unit_call (fun c => match c with GTimestamp v => Some v | _ => None end)); [reflexivity|]. intros []; reflexivity.
Qed.
Lemma named_is : forall h rs g f l, grun initial h = Ok (rs, g) -> named_language h f l -> check_extension (g_archive g) f = Ok l.
Proof.
  intros h rs g f l G N. destruct (settings_alike _ _ _ G) as ((_ & _ & _ & _ & _ & _ & _ & C) & _). rewrite C. destruct N as [(ext & X & ->)|(X & ->)].
  - rewrite (Properties_Api.C11_last_registration _ _ _ X). f_equal. f_equal. unfold language_registered. apply latest_flat. intros []; cbn; try reflexivity; try (destruct ext0, lang; reflexivity).
  - apply Properties_Api.C11_no_extension. exact X.
Qed.
