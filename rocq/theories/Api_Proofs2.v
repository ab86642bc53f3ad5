(** Proofs for C11, C14, C15, C16, C18. *)
From Verif Require Import Base Text_Model Text_Spec Text_Proofs2 Text_Proofs3 Api_Model Api_Spec Api_Proofs.
Local Open Scope N_scope.

(** ** C11 *)
Lemma after_last_dot_some : forall s e, after_last_dot s = Some e <-> exists base, s = base ++ [46] ++ e /\ no_byte 46 e.
Proof.
  induction s as [|c s IH]; intros e; cbn [after_last_dot].
  - split; [discriminate|]. intros (base & E & _). destruct base; discriminate.
  - destruct (after_last_dot s) as [e'|] eqn:A.
    + split.
      * intros H. injection H as ->. destruct (proj1 (IH e) eq_refl) as (base & -> & N). exists (c :: base). split; [reflexivity|assumption].
      * intros (base & E & N). destruct base as [|b base].
        -- cbn in E. injection E as -> ->. destruct (proj1 (IH e') eq_refl) as (b2 & E2 & _). rewrite E2 in N.
           apply Forall_app in N. destruct N as (_ & N). inversion N. congruence.
        -- cbn in E. injection E as -> E. apply IH. exists base. split; assumption.
    + assert (ND : no_byte 46 s).
      { clear -A. induction s as [|c s IH]; [constructor|]. cbn in A. destruct (after_last_dot s) eqn:B; [discriminate|].
        destruct (N.eqb_spec c 46); [discriminate|]. constructor; [assumption|apply IH; reflexivity]. }
      destruct (N.eqb_spec c 46) as [->|NE]; split.
      * intros H. injection H as <-. exists []. split; [reflexivity|assumption].
      * intros (base & E & N). destruct base as [|b base]; cbn in E; [injection E as ->; reflexivity|].
        injection E as <- E. rewrite E in ND. apply Forall_app in ND. destruct ND as (_ & ND). inversion ND. congruence.
      * discriminate.
      * intros (base & E & N). destruct base as [|b base]; cbn in E; [congruence|].
        injection E as <- E. rewrite E in ND. apply Forall_app in ND. destruct ND as (_ & ND). inversion ND. congruence.
Qed.
Lemma gz_cond : forall path, (3 <? length path)%nat && beqb (skipn (length path - 3) path) (txt ".gz") = true <->
  exists stem, stem <> [] /\ path = stem ++ txt ".gz".
Proof.
  intros path. split.
  - intros H. apply andb_true_iff in H. destruct H as (L & E). apply Nat.ltb_lt in L. apply beqb_true in E.
    exists (firstn (length path - 3) path). split.
    + intros Z. apply (f_equal (@length N)) in Z. rewrite firstn_length in Z. cbn in Z. lia.
    + rewrite <- E. symmetry. apply firstn_skipn.
  - intros (stem & NE & ->). rewrite app_length. change (length (txt ".gz")) with 3%nat.
    replace (length stem + 3 - 3)%nat with (length stem + 0)%nat by lia. rewrite skipn_app.
    rewrite skipn_all2 by lia. replace (length stem + 0 - length stem)%nat with O by lia. cbn [app skipn].
    rewrite beqb_refl, andb_true_r. apply Nat.ltb_lt. destruct stem; [congruence|]. cbn. lia.
Qed.
Lemma gz_firstn : forall stem, firstn (length (stem ++ txt ".gz") - 3) (stem ++ txt ".gz") = stem.
Proof.
  intros stem. rewrite app_length. change (length (txt ".gz")) with 3%nat.
  replace (length stem + 3 - 3)%nat with (length stem + 0)%nat by lia. rewrite firstn_app_2. cbn. apply app_nil_r.
Qed.
Lemma extension_ok : forall path ext, get_language_extension path = Some ext <-> extension_of path ext.
Proof.
  intros path ext. unfold get_language_extension, extension_of.
  destruct ((3 <? length path)%nat && beqb (skipn (length path - 3) path) (txt ".gz")) eqn:G.
  - apply gz_cond in G. destruct G as (stem & NE & ->). rewrite gz_firstn, after_last_dot_some. split.
    + intros (base & E & N). exists stem, base. split; [left; split; [reflexivity|assumption]|]. split; assumption.
    + intros (st & base & [(E & _)|(_ & X)] & E2 & N); [|exfalso; exact (X stem NE eq_refl)].
      apply app_inv_tail in E. subst st. exists base. split; assumption.
  - rewrite after_last_dot_some. split.
    + intros (base & E & N). exists path, base. split; [right; split; [reflexivity|]|split; assumption].
      intros s Hs E2. rewrite (proj2 (gz_cond path)) in G; [discriminate|]. exists s. split; assumption.
    + intros (st & base & [(E1 & X)|(-> & X)] & E2 & N); [|exists base; split; assumption].
      rewrite (proj2 (gz_cond path)) in G; [discriminate|]. exists st. split; assumption.
Qed.

Definition hit (ext : bytes) (p : bytes * N) : option N := if beqb (fst p) ext then Some (snd p) else None.
Lemma search_ok : forall ext i r, (i <= length r)%nat -> search_down r ext i = Ok (dflt 0 (latest (hit ext) (firstn i r))).
Proof.
  induction i as [|i IH]; intros r L; [reflexivity|]. cbn [search_down].
  destruct (nth_error r i) as [[e l]|] eqn:E; [|apply nth_error_None in E; lia].
  assert (F : firstn (S i) r = firstn i r ++ [(e, l)]).
  { rewrite <- (firstn_skipn i r) at 1. rewrite (list_eq_nth_skip _ _ _ E).
    rewrite firstn_app, firstn_firstn, firstn_length. replace (Nat.min (S i) i) with i by lia.
    replace (S i - Nat.min i (length r))%nat with 1%nat by lia. reflexivity. }
  rewrite F, latest_app. cbn [latest]. unfold hit at 1. cbn [fst snd].
  destruct (beqb e ext); [reflexivity|]. apply IH. lia.
Qed.

Definition ext_entry (c : call) : list (bytes * N) :=
  match c with
  | RegisterExtension (Some e) (Some l) => if getLanguage l =? 0 then [] else [(e, getLanguage l)]
  | _ => []
  end.
Lemma step_ext : forall a c, a_extensions (snd (step a c)) = a_extensions a ++ ext_entry c.
Proof.
  intros a c. destruct c as [k' v|o|o|o| | | | |n|[e|] [l|]|[p|] [u|]|t y|n]; try (symmetry; apply app_nil_r).
  - destruct k'; symmetry; apply app_nil_r.
  - cbn [step ext_entry snd a_extensions with_extensions]. unfold register_name, register_int.
    destruct (getLanguage l =? 0) eqn:Z; cbn [snd]; [symmetry; apply app_nil_r|]. try rewrite Z. reflexivity.
  - cbn [step ext_entry]. destruct (register_macro_other a t y) as (_ & _ & _ & _ & -> & _). symmetry; apply app_nil_r.
  - cbn [step ext_entry]. destruct ((n =? 0) || (n =? 1)); symmetry; apply app_nil_r.
Qed.
Lemma run_ext : forall h a, a_extensions (run h a) = a_extensions a ++ flat_map ext_entry h.
Proof.
  induction h as [|c h IH]; intros a; [symmetry; apply app_nil_r|].
  cbn [run fold_left]. fold (run h (snd (step a c))). rewrite IH, step_ext, <- app_assoc. reflexivity.
Qed.
Lemma lang_known : forall l, getLanguage l =? 0 = false <-> In l languages.
Proof.
  intros l. split.
  - intros H. destruct (in_dec bytes_dec l languages) as [I|I]; [exact I|exfalso].
    unfold getLanguage, lang2int in H. cbn [find_by_name] in H. rewrite !beqb_dec in H. unfold languages in I. cbn [map] in I.
    repeat match type of H with context [if (if bytes_dec ?x l then true else false) then _ else _] =>
      destruct (bytes_dec x l); [solve [discriminate H | exfalso; apply I; subst l; repeat first [left; reflexivity | right]]|] end.
    discriminate H.
  - intros [<-|[<-|[<-|[<-|[<-|[]]]]]]; reflexivity.
Qed.
Lemma lang_string : forall l, In l languages -> getLanguageString (getLanguage l) = l /\ l <> [].
Proof. intros l [<-|[<-|[<-|[<-|[<-|[]]]]]]; split; try reflexivity; discriminate. Qed.
Lemma ext_history : forall ext h, latest (hit ext) (flat_map ext_entry h) = option_map getLanguage (latest (registers ext) h).
Proof.
  intros ext. induction h as [|c h IH]; [reflexivity|]. cbn [flat_map latest]. rewrite latest_app, IH.
  destruct (latest (registers ext) h); [reflexivity|]. cbn [option_map].
  destruct c as [k' v|o|o|o| | | | |n|[e|] [l|]|[p|] [u|]|t y|n]; try reflexivity.
  cbn [ext_entry registers]. destruct (getLanguage l =? 0) eqn:Z.
  - destruct (bytes_dec e ext); [|reflexivity]. destruct (in_dec bytes_dec l languages) as [I|I]; [|reflexivity].
    apply lang_known in I. congruence.
  - cbn [latest hit fst snd]. unfold hit. cbn [fst snd]. rewrite beqb_dec. destruct (bytes_dec e ext); [|reflexivity].
    destruct (in_dec bytes_dec l languages) as [I|I]; [reflexivity|]. exfalso. apply I, lang_known. exact Z.
Qed.
Lemma latest_none : forall ext (r : list (bytes * N)), ~ In ext (map fst r) -> latest (hit ext) r = None.
Proof.
  induction r as [|[e l] r IH]; intros N; [reflexivity|]. cbn in *. rewrite IH by tauto.
  unfold hit. cbn. rewrite beqb_dec. destruct (bytes_dec e ext); [exfalso; tauto|reflexivity].
Qed.
Lemma builtin_ok : forall ext, latest (hit ext) (standard_extensions ++ standard_extensions) = option_map getLanguage (builtin ext) /\
  (forall l, builtin ext = Some l -> In l languages).
Proof.
  intros ext. destruct (in_dec bytes_dec ext (map fst standard_extensions)) as [I|I].
  - cbn in I. repeat (destruct I as [<-|I]; [split; [vm_compute; reflexivity|intros l H; vm_compute in H; injection H as <-; vm_compute; tauto]|]).
    destruct I.
  - rewrite latest_none by (rewrite map_app, in_app_iff; tauto). unfold builtin.
    repeat match goal with |- context [in_dec bytes_dec ext ?l] =>
      let J := fresh in destruct (in_dec bytes_dec ext l) as [J|J]; [exfalso; apply I; cbn in J |- *; tauto|] end.
    split; [reflexivity|discriminate].
Qed.
Lemma registers_known : forall ext h l, latest (registers ext) h = Some l -> In l languages.
Proof.
  induction h as [|c h IH]; intros l; cbn [latest]; [discriminate|].
  destruct (latest (registers ext) h) as [b|]; [intros E; injection E as <-; apply IH; reflexivity|].
  destruct c as [k' v|o|o|o| | | | |n|[e|] [l'|]|[p|] [u|]|t y|n]; cbn [registers]; try discriminate.
  destruct (bytes_dec e ext); [|discriminate]. destruct (in_dec bytes_dec l' languages); [|discriminate]. intros E; injection E as <-; assumption.
Qed.
Lemma language_history : forall h ext f, extension_of f ext ->
  language_from_filename (a_extensions (run h archive_create)) f =
  Ok (dflt 0 (option_map getLanguage (or_else (latest (registers ext) h) (builtin ext)))).
Proof.
  intros h ext f E. apply extension_ok in E. unfold language_from_filename. rewrite E, search_ok by lia.
  rewrite firstn_all, run_ext, latest_app, ext_history. cbn [archive_create a_extensions].
  rewrite (proj1 (builtin_ok ext)). destruct (latest (registers ext) h); reflexivity.
Qed.
Lemma extension_history : forall h ext f, extension_of f ext ->
  check_extension (run h archive_create) f = Ok (or_else (latest (registers ext) h) (builtin ext)).
Proof.
  intros h ext f E. unfold check_extension. rewrite (language_history h ext f E). cbn [obind]. f_equal.
  assert (K : forall l, or_else (latest (registers ext) h) (builtin ext) = Some l -> In l languages).
  { intros l. destruct (latest (registers ext) h) eqn:L; cbn; intros Q.
    - injection Q as <-. eapply registers_known, L.
    - eapply builtin_ok, Q. }
  destruct (or_else (latest (registers ext) h) (builtin ext)) as [l|]; cbn [option_map dflt]; [|reflexivity].
  destruct (lang_string l (K l eq_refl)) as (-> & NE). destruct l; [congruence|reflexivity].
Qed.
Lemma no_extension : forall h f, (forall ext, ~ extension_of f ext) -> check_extension (run h archive_create) f = Ok None.
Proof.
  intros h f N. unfold check_extension, language_from_filename.
  destruct (get_language_extension f) as [e|] eqn:E; [|reflexivity].
  exfalso. apply (N e). apply extension_ok. exact E.
Qed.
Lemma extension_unique : forall f e1 e2, extension_of f e1 -> extension_of f e2 -> e1 = e2.
Proof. intros f e1 e2 H1 H2. apply extension_ok in H1, H2. congruence. Qed.
(** a registration is accepted exactly when the language is known *)
Lemma register_status : forall a e l, fst (step a (RegisterExtension (Some e) (Some l))) =
  if in_dec bytes_dec l languages then ST_OK else ST_INVALID_INPUT.
Proof.
  intros a e l. cbn [step fst]. unfold register_name. destruct (in_dec bytes_dec l languages) as [I|I].
  - apply lang_known in I. rewrite I. reflexivity.
  - destruct (getLanguage l =? 0) eqn:Z; [reflexivity|]. exfalso. apply I, lang_known, Z.
Qed.

(** ** C18 *)
Lemma check_language_ok : forall l, check_language (Some l) = getLanguage l.
Proof.
  intros l. cbn [check_language]. unfold langs. cbn [map check_loop]. rewrite !beqb_dec.
  repeat match goal with |- context [if (if bytes_dec l ?x then true else false) then _ else _] =>
      destruct (bytes_dec l x); [reflexivity|] end.
  destruct (getLanguage l =? 0) eqn:Z; [apply N.eqb_eq in Z; congruence|].
  apply lang_known in Z. unfold languages in Z. cbn [map In] in Z. exfalso. repeat (destruct Z as [Z|Z]; [congruence|]). exact Z.
Qed.
(** the language the settings ask for: the unit's, else the archive's *)
Definition asked (u : usettings) (a : archive) : option bytes := or_else (uget u ULanguage) (get_attr a ALanguage).
Lemma decide_ok : forall u h f, let a := run h archive_create in
  (forall l, asked u a = Some l -> In l languages -> decide_language u a f = Ok (ST_OK, getLanguage l)) /\
  ((forall l, asked u a = Some l -> ~ In l languages) -> f = None -> decide_language u a f = Ok (ST_UNSET_LANGUAGE, 0)) /\
  (forall p, (forall l, asked u a = Some l -> ~ In l languages) -> f = Some p -> (forall e, ~ extension_of p e) ->
     decide_language u a f = Ok (ST_UNSET_LANGUAGE, 0)) /\
  (forall p e, (forall l, asked u a = Some l -> ~ In l languages) -> f = Some p -> extension_of p e ->
     decide_language u a f =
     Ok match or_else (latest (registers e) h) (builtin e) with
        | Some l => (ST_OK, getLanguage l)
        | None => (ST_UNSET_LANGUAGE, 0)
        end).
Proof.
  intros u h f a.
  assert (L : (match u_language u with
              | Some l => check_language (Some l)
              | None => match a_language a with Some l => check_language (Some l) | None => 0 end
              end) = dflt 0 (option_map getLanguage (asked u a))).
  { unfold asked. cbn [uget get_attr]. destruct (u_language u) as [l|]; [apply check_language_ok|].
    destruct (a_language a) as [l|]; [apply check_language_ok|reflexivity]. }
  assert (Z : (forall l, asked u a = Some l -> ~ In l languages) -> dflt 0 (option_map getLanguage (asked u a)) = 0).
  { intros N. destruct (asked u a) as [l|]; [|reflexivity]. cbn [option_map dflt]. destruct (getLanguage l =? 0) eqn:G; [apply N.eqb_eq in G; exact G|].
    exfalso. apply (N l eq_refl), lang_known, G. }
  unfold decide_language. rewrite L. repeat split.
  - intros l E I. rewrite E. cbn [dflt option_map]. apply lang_known in I.
    destruct f; rewrite ?I; cbn [obind]; rewrite I; reflexivity.
  - intros N ->. rewrite (Z N). reflexivity.
  - intros p N -> E. rewrite (Z N). cbn. unfold language_from_filename.
    destruct (get_language_extension p) as [e|] eqn:Q; [|reflexivity].
    exfalso. apply (E e). apply extension_ok. exact Q.
  - intros p e N -> E. rewrite (Z N). cbn [N.eqb]. subst a. rewrite (language_history h e p E). cbn [obind].
    assert (K : forall l, or_else (latest (registers e) h) (builtin e) = Some l -> In l languages).
    { intros l. destruct (latest (registers e) h) eqn:Q; cbn; intros R.
      - injection R as <-. eapply registers_known, Q.
      - eapply builtin_ok, R. }
    destruct (or_else (latest (registers e) h) (builtin e)) as [l|]; cbn [option_map dflt]; [|reflexivity].
    specialize (K l eq_refl). apply lang_known in K. rewrite K. reflexivity.
Qed.
Lemma known_number : forall l, In l languages -> getLanguage l <> 0 /\ getLanguageString (getLanguage l) = l.
Proof. intros l I. split; [apply N.eqb_neq, lang_known, I|apply lang_string, I]. Qed.
