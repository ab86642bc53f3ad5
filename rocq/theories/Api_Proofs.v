(** Proofs for C11-C14, C17, C18. *)
From Verif Require Import Base Text_Model Text_Spec Text_Proofs2 Text_Proofs3 Api_Model Api_Spec.
Local Open Scope N_scope.

Lemma latest_app : forall {A B} (f : A -> option B) h1 h2,
  latest f (h1 ++ h2) = match latest f h2 with Some b => Some b | None => latest f h1 end.
Proof.
  induction h1 as [|x h1 IH]; intros h2; cbn; [now destruct (latest f h2)|].
  rewrite IH. destruct (latest f h2); reflexivity.
Qed.
Lemma run_app : forall h1 h2 a, run (h1 ++ h2) a = run h2 (run h1 a).
Proof. intros. unfold run. apply fold_left_app. Qed.

(** a quantity that each call either sets or leaves alone holds the latest value set *)
Lemma history : forall {B} (get : archive -> B) (f : call -> option B),
  (forall a c, get (snd (step a c)) = match f c with Some b => b | None => get a end) ->
  forall h a, get (run h a) = match latest f h with Some b => b | None => get a end.
Proof.
  intros B get f S h. induction h as [|c h IH]; intros a; [reflexivity|].
  cbn [run fold_left latest]. fold (run h (snd (step a c))). rewrite IH, S.
  destruct (latest f h); reflexivity.
Qed.
(** the same when the calls of the history satisfy [P] *)
Lemma history_if : forall {B} (P : call -> Prop) (get : archive -> B) (f : call -> option B),
  (forall a c, P c -> get (snd (step a c)) = match f c with Some b => b | None => get a end) ->
  forall h a, Forall P h -> get (run h a) = match latest f h with Some b => b | None => get a end.
Proof.
  intros B P get f S h a F. revert a. induction F as [|c h Pc F IH]; intros a; [reflexivity|].
  cbn [run fold_left latest]. fold (run h (snd (step a c))). rewrite IH, S by assumption.
  destruct (latest f h); reflexivity.
Qed.

(** ** C17 *)
Ltac cases_step :=
  repeat match goal with
  | |- context [match ?x with _ => _ end] =>
      match x with
      | context [match _ with _ => _ end] => fail 1
      | _ => destruct x eqn:?; cbn [fst snd step]
      end
  end.

Lemma register_macro_attr : forall a t y k, get_attr (snd (register_macro a t y)) k = get_attr a k.
Proof.
  intros a [t|] [y|] k; try reflexivity. unfold register_macro.
  destruct (macro_loop _ _ _ _ _) as [[v|]|]; destruct k; reflexivity.
Qed.
Lemma step_attr : forall k a c, get_attr (snd (step a c)) k = match sets k c with Some v => v | None => get_attr a k end.
Proof.
  intros k a c. destruct c as [k' v|o|o|o| | | | |n|[e|] [l|]|[p|] [u|]|t y|n]; try (destruct k; reflexivity).
  - destruct k, k'; reflexivity.
  - apply register_macro_attr.
  - cbn [step]. destruct ((n =? 0) || (n =? 1)); destruct k; reflexivity.
Qed.
Lemma attr_history : forall k h a, get_attr (run h a) k = match latest (sets k) h with Some v => v | None => get_attr a k end.
Proof. intros k. exact (history (fun a => get_attr a k) (sets k) (step_attr k)). Qed.

Lemma register_macro_other : forall a t y, a_tabstop (snd (register_macro a t y)) = a_tabstop a /\
  a_revision_number (snd (register_macro a t y)) = a_revision_number a /\ a_options (snd (register_macro a t y)) = a_options a /\
  a_namespaces (snd (register_macro a t y)) = a_namespaces a /\ a_extensions (snd (register_macro a t y)) = a_extensions a /\
  a_revision (snd (register_macro a t y)) = a_revision a.
Proof.
  intros a [t|] [y|]; try (repeat split; reflexivity). unfold register_macro.
  destruct (macro_loop _ _ _ _ _) as [[v|]|]; repeat split; reflexivity.
Qed.
Lemma step_tabstop : forall a c, a_tabstop (snd (step a c)) = match sets_tabstop c with Some v => v | None => a_tabstop a end.
Proof.
  intros a c. destruct c as [k' v|o|o|o| | | | |n|[e|] [l|]|[p|] [u|]|t y|n]; try reflexivity.
  - destruct k'; reflexivity.
  - apply register_macro_other.
  - cbn [step]. destruct ((n =? 0) || (n =? 1)); reflexivity.
Qed.
Lemma step_revision : forall a c, a_revision_number (snd (step a c)) = match sets_revision c with Some v => Some v | None => a_revision_number a end.
Proof.
  intros a c. destruct c as [k' v|o|o|o| | | | |n|[e|] [l|]|[p|] [u|]|t y|n]; try reflexivity.
  - destruct k'; reflexivity.
  - apply register_macro_other.
  - cbn [step sets_revision]. destruct (N.eqb_spec n 0), (N.eqb_spec n 1), (N.leb_spec n 1); try lia; reflexivity.
Qed.
Lemma tabstop_history : forall h, a_tabstop (run h archive_create) = dflt 8 (latest sets_tabstop h).
Proof. intros h. rewrite (history a_tabstop sets_tabstop step_tabstop). unfold dflt. destruct (latest sets_tabstop h); reflexivity. Qed.
Lemma revision_history : forall h, get_revision (run h archive_create) = dflt 2 (latest sets_revision h).
Proof.
  intros h. unfold get_revision.
  rewrite (history a_revision_number (fun c => option_map Some (sets_revision c))).
  - assert (E : latest (fun c => option_map Some (sets_revision c)) h = option_map Some (latest sets_revision h)).
    { induction h as [|c h IH]; [reflexivity|]. cbn. rewrite IH. destruct (latest sets_revision h); reflexivity. }
    rewrite E. destruct (latest sets_revision h); reflexivity.
  - intros a c. rewrite step_revision. destruct (sets_revision c); reflexivity.
Qed.

Lemma rejected_unchanged : forall a c, fst (step a c) <> ST_OK -> snd (step a c) = a.
Proof.
  intros a c H. destruct c as [k' v|o|o|o| | | | |n|[e|] [l|]|[p|] [u|]|[t|] [y|]|n]; cbn [step fst snd] in *; try congruence; try reflexivity.
  - unfold register_name, register_int in *. destruct (getLanguage l =? 0); cbn [fst snd] in *; [destruct a; reflexivity|congruence].
  - cbn in H. congruence.
  - unfold register_macro in *. destruct (macro_loop _ _ _ _ _) as [[v|]|]; cbn in *; congruence.
  - destruct ((n =? 0) || (n =? 1)); cbn in *; congruence.
Qed.

Lemma uhistory : forall {B} (get : usettings -> B) (f : ucall -> option B),
  (forall a c, get (snd (ustep a c)) = match f c with Some b => b | None => get a end) ->
  forall h a, get (urun h a) = match latest f h with Some b => b | None => get a end.
Proof.
  intros B get f S h. induction h as [|c h IH]; intros a; [reflexivity|].
  cbn [urun fold_left latest]. fold (urun h (snd (ustep a c))). rewrite IH, S.
  destruct (latest f h); reflexivity.
Qed.
Lemma uattr_history : forall k h u, uget (urun h u) k = match latest (usets k) h with Some v => v | None => uget u k end.
Proof.
  intros k. apply (uhistory (fun u => uget u k) (usets k)). intros a [k' v|e].
  - destruct k, k'; reflexivity.
  - cbn [ustep]. destruct (3 <? e); destruct k; reflexivity.
Qed.
Lemma ueol_history : forall h u, u_eol (urun h u) = match latest sets_eol h with Some v => v | None => u_eol u end.
Proof.
  apply (uhistory u_eol sets_eol). intros a [k v|e]; [destruct k; reflexivity|].
  cbn [ustep sets_eol]. destruct (N.ltb_spec 3 e), (N.leb_spec e 3); try lia; reflexivity.
Qed.
Lemma urejected : forall u c, fst (ustep u c) <> ST_OK -> snd (ustep u c) = u.
Proof. intros u [k v|e]; cbn [ustep]; [|destruct (3 <? e)]; cbn; congruence. Qed.

(** ** C12 *)
Lemma testbit_mod7 : forall o i, i < 7 -> N.testbit (u64 o mod 2 ^ 7) i = N.testbit o i.
Proof.
  intros o i H. unfold u64. rewrite N.mod_pow2_bits_low by assumption.
  rewrite N.mod_pow2_bits_low by lia. reflexivity.
Qed.
Lemma testbit_mod7_high : forall o i, 7 <= i -> N.testbit (u64 o mod 2 ^ 7) i = false.
Proof. intros. rewrite N.mod_pow2_bits_high by assumption. reflexivity. Qed.
Lemma pow2_bit : forall j i, N.testbit (2 ^ j) i = (i =? j).
Proof.
  intros j i. destruct (N.eqb_spec i j) as [->|NE].
  - apply N.pow2_bits_true.
  - apply N.pow2_bits_false. congruence.
Qed.
Lemma beqb_dec : forall a b, beqb a b = if bytes_dec a b then true else false.
Proof. intros. unfold beqb, bytes_dec. reflexivity. Qed.

Lemma register_ns_bit : forall a p u i, N.testbit (a_options (snd (register_namespace a (Some p) (Some u)))) i =
  if bytes_dec u CPP_URI then N.testbit (a_options a) i || (i =? 3) || (i =? 13)
  else if bytes_dec u ERROR_URI then N.testbit (a_options a) i || (i =? 11)
  else if bytes_dec u POSITION_URI then N.testbit (a_options a) i || (i =? 2)
  else N.testbit (a_options a) i.
Proof.
  intros a p u i. unfold register_namespace. cbn [snd a_options with_options].
  rewrite !beqb_dec.
  destruct (bytes_dec u CPP_URI); [unfold OPT_CPP, OPT_CPP_DECLARED; rewrite !N.lor_spec, !pow2_bit; reflexivity|].
  destruct (bytes_dec u ERROR_URI); [unfold OPT_DEBUG; rewrite !N.lor_spec, !pow2_bit; reflexivity|].
  destruct (bytes_dec u POSITION_URI); [unfold OPT_POSITION; rewrite !N.lor_spec, !pow2_bit; reflexivity|].
  reflexivity.
Qed.

Lemma step_bit : forall i, i < 7 -> forall a c,
  N.testbit (a_options (snd (step a c))) i = match bit_effect i c with Some b => b | None => N.testbit (a_options a) i end.
Proof.
  intros i Hi a c. destruct c as [k' v|o|o|o| | | | |n|[e|] [l|]|[p|] [u|]|t y|n]; try reflexivity.
  - destruct k'; reflexivity.
  - cbn [step snd a_options with_options bit_effect]. apply testbit_mod7. assumption.
  - cbn [step snd a_options with_options bit_effect]. rewrite N.lor_spec, testbit_mod7 by assumption.
    destruct (N.testbit o i) eqn:E; [apply orb_true_r|]. rewrite orb_false_r.
    destruct (N.testbit o 3); [|reflexivity]. unfold OPT_CPP_DECLARED. rewrite N.lor_spec, pow2_bit.
    replace (i =? 13) with false by lia. apply orb_false_r.
  - cbn [step snd a_options with_options bit_effect]. rewrite N.ldiff_spec, testbit_mod7 by assumption.
    destruct (N.testbit o i); [apply andb_false_r|apply andb_true_r].
  - cbn [step snd a_options with_options bit_effect]. unfold OPT_ARCHIVE. rewrite N.ldiff_spec, pow2_bit.
    replace (i =? 14) with false by lia. apply andb_true_r.
  - cbn [step snd a_options with_options bit_effect]. unfold OPT_ARCHIVE. rewrite N.lor_spec, pow2_bit.
    replace (i =? 14) with false by lia. apply orb_false_r.
  - cbn [step snd a_options with_options bit_effect]. unfold OPT_HASH. rewrite N.lor_spec, pow2_bit.
    replace (i =? 15) with false by lia. apply orb_false_r.
  - cbn [step snd a_options with_options bit_effect]. unfold OPT_HASH. rewrite N.ldiff_spec, pow2_bit.
    replace (i =? 15) with false by lia. apply andb_true_r.
  - cbn [step]. rewrite register_ns_bit. cbn [bit_effect].
    change (txt "http://www.srcML.org/srcML/cpp") with CPP_URI. change (txt "http://www.srcML.org/srcML/position") with POSITION_URI.
    replace (i =? 13) with false by lia. replace (i =? 11) with false by lia. rewrite !orb_false_r.
    destruct (bytes_dec u CPP_URI). { destruct (i =? 3); [apply orb_true_r|apply orb_false_r]. }
    destruct (bytes_dec u ERROR_URI) as [->|]. { destruct (bytes_dec ERROR_URI POSITION_URI); [discriminate|reflexivity]. }
    destruct (bytes_dec u POSITION_URI). { destruct (i =? 2); [apply orb_true_r|apply orb_false_r]. }
    reflexivity.
  - cbn [step]. destruct (register_macro_other a t y) as (_ & _ & -> & _). reflexivity.
  - cbn [step]. destruct ((n =? 0) || (n =? 1)); reflexivity.
Qed.

Lemma options_history : forall h i, i < 7 ->
  N.testbit (get_options (run h archive_create)) i = dflt false (latest (bit_effect i) h).
Proof.
  intros h i Hi. unfold get_options. rewrite N.mod_pow2_bits_low by assumption.
  rewrite (history (fun a => N.testbit (a_options a) i) (bit_effect i) (step_bit i Hi)).
  unfold dflt. destruct (latest (bit_effect i) h); [reflexivity|].
  cbn [archive_create a_options]. unfold OPT_DEFAULT, OPT_ARCHIVE, OPT_HASH, OPT_NAMESPACE_DECL.
  rewrite !N.lor_spec, !pow2_bit. lia.
Qed.
Lemma options_range : forall a, get_options a < 128.
Proof. intros. unfold get_options. apply N.mod_lt. discriminate. Qed.

Lemma internal_bit : forall i (eff : call -> option bool) , i = 14 \/ i = 15 ->
  (forall c, eff c = if i =? 14 then option_map negb (solitary_effect c) else hash_effect c) ->
  forall a c, ~ is_set_options c ->
  N.testbit (a_options (snd (step a c))) i = match eff c with Some b => b | None => N.testbit (a_options a) i end.
Proof.
  intros i eff Hi E a c NS. rewrite E.
  destruct c as [k' v|o|o|o| | | | |n|[e|] [l|]|[p|] [u|]|t y|n];
    try (cbn [is_set_options] in NS; exfalso; apply NS; exact I);
    try (destruct Hi as [-> | ->]; reflexivity).
  - destruct Hi as [-> | ->]; destruct k'; reflexivity.
  - cbn [step snd a_options with_options]. rewrite N.lor_spec, testbit_mod7_high by lia. rewrite orb_false_r.
    destruct Hi as [-> | ->]; cbn [N.eqb Pos.eqb solitary_effect hash_effect option_map];
    (destruct (N.testbit o 3); [|reflexivity]); unfold OPT_CPP_DECLARED; rewrite N.lor_spec, pow2_bit; apply orb_false_r.
  - cbn [step snd a_options with_options]. rewrite N.ldiff_spec, testbit_mod7_high by lia. rewrite andb_true_r.
    destruct Hi as [-> | ->]; reflexivity.
  - cbn [step snd a_options with_options]. unfold OPT_ARCHIVE. rewrite N.ldiff_spec, pow2_bit.
    destruct Hi as [-> | ->]; cbn; [apply andb_false_r|apply andb_true_r].
  - cbn [step snd a_options with_options]. unfold OPT_ARCHIVE. rewrite N.lor_spec, pow2_bit.
    destruct Hi as [-> | ->]; cbn; [apply orb_true_r|apply orb_false_r].
  - cbn [step snd a_options with_options]. unfold OPT_HASH. rewrite N.lor_spec, pow2_bit.
    destruct Hi as [-> | ->]; cbn; [apply orb_false_r|apply orb_true_r].
  - cbn [step snd a_options with_options]. unfold OPT_HASH. rewrite N.ldiff_spec, pow2_bit.
    destruct Hi as [-> | ->]; cbn; [apply andb_true_r|apply andb_false_r].
  - cbn [step]. rewrite register_ns_bit.
    destruct (bytes_dec u CPP_URI), (bytes_dec u ERROR_URI), (bytes_dec u POSITION_URI);
      destruct Hi as [-> | ->]; cbn; rewrite ?orb_false_r; reflexivity.
  - cbn [step]. destruct (register_macro_other a t y) as (_ & _ & -> & _). destruct Hi as [-> | ->]; reflexivity.
  - cbn [step]. destruct ((n =? 0) || (n =? 1)); destruct Hi as [-> | ->]; reflexivity.
Qed.

Lemma land_pow2 : forall o j, N.land o (2 ^ j) =? 0 = negb (N.testbit o j).
Proof.
  intros o j. destruct (N.testbit o j) eqn:E; cbn [negb].
  - apply N.eqb_neq. intros Z. apply (f_equal (fun x => N.testbit x j)) in Z.
    rewrite N.land_spec, pow2_bit, E, N.eqb_refl in Z. rewrite N.bits_0 in Z. discriminate.
  - apply N.eqb_eq. apply N.bits_inj. intros i. rewrite N.land_spec, pow2_bit, N.bits_0.
    destruct (N.eqb_spec i j) as [->|]; [now rewrite E|apply andb_false_r].
Qed.

Lemma latest_map : forall {A B C} (f : A -> option B) (g : B -> C) h,
  latest (fun c => option_map g (f c)) h = option_map g (latest f h).
Proof. induction h as [|c h IH]; [reflexivity|]. cbn. rewrite IH. destruct (latest f h); reflexivity. Qed.

Lemma internal_history : forall h, Forall (fun c => ~ is_set_options c) h ->
  is_solitary (run h archive_create) = dflt false (latest solitary_effect h) /\
  has_hash (run h archive_create) = dflt true (latest hash_effect h).
Proof.
  intros h F. unfold is_solitary, has_hash, OPT_ARCHIVE, OPT_HASH. rewrite !land_pow2, negb_involutive. split.
  - rewrite (history_if (fun c => ~ is_set_options c) (fun a => N.testbit (a_options a) 14) (fun c => option_map negb (solitary_effect c))
      (internal_bit 14 _ (or_introl eq_refl) (fun c => eq_refl)) h archive_create F).
    rewrite latest_map. destruct (latest solitary_effect h) as [b|]; cbn; [apply negb_involutive|reflexivity].
  - rewrite (history_if (fun c => ~ is_set_options c) (fun a => N.testbit (a_options a) 15) hash_effect
      (internal_bit 15 _ (or_intror eq_refl) (fun c => eq_refl)) h archive_create F).
    destruct (latest hash_effect h); reflexivity.
Qed.

(** ** C13 *)
Lemma flatten_length : forall ps, length (flatten ps) = (length ps * 2)%nat.
Proof. induction ps as [|[a b] ps IH]; [reflexivity|]. cbn. unfold flatten in *. cbn. rewrite IH. reflexivity. Qed.
Lemma flatten_nth : forall ps i, nth_error (flatten ps) (i * 2) = option_map fst (nth_error ps i) /\
  nth_error (flatten ps) (i * 2 + 1) = option_map snd (nth_error ps i).
Proof.
  induction ps as [|[a b] ps IH]; intros i.
  - destruct i; split; try reflexivity; cbn; destruct (i * 2 + 1)%nat; reflexivity.
  - destruct i as [|i]; [split; reflexivity|]. change (S i * 2)%nat with (S (S (i * 2))).
    change (S (S (i * 2)) + 1)%nat with (S (S (i * 2 + 1))). cbn [flatten flat_map app nth_error fst snd].
    apply IH.
Qed.
Lemma flatten_app : forall x y, flatten (x ++ y) = flatten x ++ flatten y.
Proof. intros. unfold flatten. apply flat_map_app. Qed.

(** the loop over pairs *)
Lemma macro_loop_ok : forall token type tail head,
  ~ In token (map fst head) ->
  macro_loop (flatten (head ++ tail)) token type (length head) (length tail) =
  Some (if in_dec bytes_dec token (map fst tail) then Some (flatten (head ++ upd tail token type)) else None).
Proof.
  induction tail as [|[m w] tail IH]; intros head N; [reflexivity|].
  cbn [length macro_loop].
  destruct (flatten_nth (head ++ (m, w) :: tail) (length head)) as (E1 & E2).
  rewrite nth_error_app2 in E1, E2 by lia. replace (length head - length head)%nat with O in E1, E2 by lia. cbn in E1, E2.
  rewrite E1. rewrite beqb_dec. cbn [map fst upd]. rewrite beqb_dec.
  destruct (bytes_dec m token) as [->|NE].
  - rewrite E2. destruct (in_dec bytes_dec token (token :: map fst tail)) as [_|X]; [|exfalso; apply X; left; reflexivity].
    f_equal. f_equal. rewrite !flatten_app.
    change (flatten ((token, w) :: tail)) with (token :: w :: flatten tail).
    change (flatten ((token, type) :: tail)) with (token :: type :: flatten tail).
    rewrite firstn_app, skipn_app, flatten_length.
    replace (length head * 2 + 1 - length head * 2)%nat with 1%nat by lia.
    replace (length head * 2 + 2 - length head * 2)%nat with 2%nat by lia.
    rewrite firstn_all2 by (rewrite flatten_length; lia). rewrite skipn_all2 by (rewrite flatten_length; lia).
    cbn. rewrite <- app_assoc. reflexivity.
  - replace (head ++ (m, w) :: tail) with ((head ++ [(m, w)]) ++ tail) by (rewrite <- app_assoc; reflexivity).
    replace (S (length head)) with (length (head ++ [(m, w)])) by (rewrite app_length; cbn; lia).
    rewrite IH.
    + destruct (in_dec bytes_dec token (map fst tail)) as [I|I], (in_dec bytes_dec token (m :: map fst tail)) as [J|J]; try reflexivity.
      * rewrite <- app_assoc. reflexivity.
      * exfalso. apply J. now right.
      * destruct J; [congruence|contradiction].
    + rewrite map_app, in_app_iff. cbn. intros [X|[X|[]]]; [contradiction|congruence].
Qed.
Lemma upd_notin : forall ps n v, ~ In n (map fst ps) -> upd ps n v = ps ++ [(n, v)].
Proof.
  induction ps as [|[m w] ps IH]; intros n v H; [reflexivity|]. cbn in *. rewrite beqb_dec.
  destruct (bytes_dec m n); [exfalso; tauto|]. rewrite IH by tauto. reflexivity.
Qed.
Lemma register_macro_ok : forall a ps t y, a_macros a = flatten ps ->
  fst (register_macro a (Some t) (Some y)) = ST_OK /\ a_macros (snd (register_macro a (Some t) (Some y))) = flatten (upd ps t y).
Proof.
  intros a ps t y E. unfold register_macro. rewrite E, flatten_length.
  replace (length ps * 2 / 2)%nat with (length ps) by (rewrite Nat.div_mul; lia).
  pose proof (macro_loop_ok t y ps [] ltac:(intros [])) as L. cbn [app length] in L. rewrite L.
  destruct (in_dec bytes_dec t (map fst ps)) as [I|I]; cbn [fst snd]; (split; [reflexivity|]).
  - reflexivity.
  - cbn. rewrite upd_notin by assumption. rewrite flatten_app. reflexivity.
Qed.
Lemma step_macros : forall a c, (forall t y, c <> RegisterMacro (Some t) (Some y)) -> a_macros (snd (step a c)) = a_macros a.
Proof.
  intros a c H. destruct c as [k' v|o|o|o| | | | |n|[e|] [l|]|[p|] [u|]|[t|] [y|]|n]; try reflexivity.
  - destruct k'; reflexivity.
  - exfalso. apply (H t y). reflexivity.
  - cbn [step]. destruct ((n =? 0) || (n =? 1)); reflexivity.
Qed.
Lemma macro_regs_cons : forall c h, macro_regs (c :: h) =
  match c with RegisterMacro (Some t) (Some y) => [(t, y)] | _ => [] end ++ macro_regs h.
Proof. reflexivity. Qed.

Lemma macros_run : forall h a ps, a_macros a = flatten ps -> NoDup (map fst ps) ->
  exists ps', a_macros (run h a) = flatten ps' /\ NoDup (map fst ps') /\
    map fst ps' = map fst ps ++ first_seen (map fst ps) (map fst (macro_regs h)) /\
    (forall k, last_value k ps' = or_else (last_value k (macro_regs h)) (last_value k ps)).
Proof.
  induction h as [|c h IH]; intros a ps E ND.
  - exists ps. cbn. rewrite app_nil_r. auto.
  - rewrite macro_regs_cons. cbn [run fold_left]. fold (run h (snd (step a c))).
    assert (D : (exists t y, c = RegisterMacro (Some t) (Some y)) \/ (forall t y, c <> RegisterMacro (Some t) (Some y))).
    { destruct c as [| | | | | | | | | | |[t|] [y|]|]; try (right; intros; discriminate). left; eauto. }
    destruct D as [(t & y & ->)|D].
    + destruct (register_macro_ok a ps t y E) as (_ & E1). cbn [step].
      destruct (IH _ (upd ps t y) E1 (upd_nodup ps t y ND)) as (ps' & R & ND' & NM & LV).
      exists ps'. split; [exact R|]. split; [exact ND'|]. cbn [app map fst first_seen]. split.
      * rewrite NM, upd_names. unfold bdec.
        destruct (in_dec (list_eq_dec N.eq_dec) t (map fst ps)) as [J|J].
        -- rewrite app_nil_r. reflexivity.
        -- rewrite <- app_assoc. f_equal. cbn [app]. f_equal. apply first_seen_ext.
           intros x. rewrite in_app_iff. cbn. tauto.
      * intros k. rewrite LV. cbn [last_value]. rewrite upd_value by assumption.
        destruct (last_value k (macro_regs h)); [reflexivity|]. cbn.
        destruct (list_eq_dec N.eq_dec t k); reflexivity.
    + destruct (IH (snd (step a c)) ps) as (ps' & R & ND' & NM & LV); [rewrite step_macros; assumption|assumption|].
      exists ps'. split; [exact R|]. split; [exact ND'|].
      replace (match c with RegisterMacro (Some t) (Some y) => [(t, y)] | _ => [] end) with (@nil (bytes * bytes)).
      * cbn [app]. split; assumption.
      * destruct c as [| | | | | | | | | | |[t|] [y|]|]; try reflexivity. exfalso. eapply D. reflexivity.
Qed.

Lemma token_type_loop_ok : forall token tail head,
  ~ In token (map fst head) -> NoDup (map fst tail) -> forall fuel, (length tail < fuel)%nat ->
  token_type_loop (flatten (head ++ tail)) token (length head) fuel = Ok (last_value token tail).
Proof.
  induction tail as [|[m w] tail IH]; intros head N ND fuel F; (destruct fuel as [|fuel]; [cbn in F; lia|]); cbn [token_type_loop].
  - rewrite app_nil_r. destruct (flatten_nth head (length head)) as (E & _). rewrite E.
    replace (nth_error head (length head)) with (@None (bytes * bytes)) by (symmetry; apply nth_error_None; lia). reflexivity.
  - destruct (flatten_nth (head ++ (m, w) :: tail) (length head)) as (E1 & E2).
    rewrite nth_error_app2 in E1, E2 by lia. replace (length head - length head)%nat with O in E1, E2 by lia. cbn in E1, E2.
    rewrite E1, beqb_dec. cbn in ND. inversion ND as [|x l NI ND']; subst. cbn [last_value].
    unfold bytes_dec. destruct (list_eq_dec N.eq_dec m token) as [->|NE].
    + rewrite E2, last_value_notin by assumption. reflexivity.
    + replace (head ++ (m, w) :: tail) with ((head ++ [(m, w)]) ++ tail) by (rewrite <- app_assoc; reflexivity).
      replace (S (length head)) with (length (head ++ [(m, w)])) by (rewrite app_length; cbn; lia).
      rewrite IH; [|rewrite map_app, in_app_iff; cbn; intros [X|[X|[]]]; [contradiction|congruence]|assumption|cbn in F; lia].
      destruct (last_value token tail); reflexivity.
Qed.

Lemma macro_get : forall a ps, a_macros a = flatten ps -> NoDup (map fst ps) ->
  macro_size a = length ps /\
  (forall i, i < 2 ^ 63 -> macro_token a i = Ok (option_map fst (nth_error ps (N.to_nat i))) /\
                           macro_type a i = Ok (option_map snd (nth_error ps (N.to_nat i)))) /\
  (forall t, macro_token_type a t = Ok (last_value t ps)).
Proof.
  intros a ps E ND. split; [unfold macro_size; rewrite E, flatten_length, Nat.div_mul by lia; reflexivity|]. split.
  - intros i Hi.
    assert (U : u64 (i * 2) = i * 2). { unfold u64. apply N.mod_small. change (2 ^ 64) with (2 ^ 63 * 2). lia. }
    assert (U1 : u64 (i * 2 + 1) = i * 2 + 1). { unfold u64. apply N.mod_small. change (2 ^ 64) with (2 ^ 63 * 2). lia. }
    unfold macro_token, macro_type. rewrite U, U1, E, flatten_length.
    destruct (flatten_nth ps (N.to_nat i)) as (E1 & E2).
    replace (N.to_nat (i * 2)) with (N.to_nat i * 2)%nat by lia.
    replace (N.to_nat (i * 2 + 1)) with (N.to_nat i * 2 + 1)%nat by lia. rewrite E1, E2.
    destruct (nth_error ps (N.to_nat i)) as [p|] eqn:Q; cbn [option_map].
    + assert (N.to_nat i < length ps)%nat by (apply nth_error_Some; congruence).
      split; [destruct (N.leb_spec (N.of_nat (length ps * 2)) (i * 2)); [lia|reflexivity]
             |destruct (N.leb_spec (N.of_nat (length ps * 2)) (i * 2 + 1)); [lia|reflexivity]].
    + apply nth_error_None in Q.
      destruct (N.leb_spec (N.of_nat (length ps * 2)) (i * 2)); [|lia].
      destruct (N.leb_spec (N.of_nat (length ps * 2)) (i * 2 + 1)); [|lia]. split; reflexivity.
  - intros t. unfold macro_token_type, macro_size. rewrite E, flatten_length, Nat.div_mul by lia.
    destruct (Nat.eqb_spec (length ps) 0) as [Z|Z].
    + destruct ps; [reflexivity|discriminate].
    + apply (token_type_loop_ok t ps []); [intros []|assumption|lia].
Qed.

Lemma macros_ok : forall h, let a := run h archive_create in
  exists ps, NoDup (map fst ps) /\
    map fst ps = first_seen [] (map fst (macro_regs h)) /\
    (forall t, last_value t ps = last_value t (macro_regs h)) /\
    macro_size a = length ps /\
    (forall i, i < 2 ^ 63 -> macro_token a i = Ok (option_map fst (nth_error ps (N.to_nat i))) /\
                             macro_type a i = Ok (option_map snd (nth_error ps (N.to_nat i)))) /\
    (forall t, macro_token_type a t = Ok (last_value t (macro_regs h))).
Proof.
  intros h a. destruct (macros_run h archive_create [] eq_refl ltac:(constructor)) as (ps & E & ND & NM & LV).
  exists ps. split; [exact ND|]. split; [exact NM|].
  assert (LV' : forall t, last_value t ps = last_value t (macro_regs h)).
  { intros t. rewrite LV. cbn. destruct (last_value t (macro_regs h)); reflexivity. }
  split; [exact LV'|]. destruct (macro_get a ps E ND) as (A & B & C).
  split; [exact A|]. split; [exact B|]. intros t. rewrite <- LV'. apply C.
Qed.
Lemma macro_status : forall h t y, fst (step (run h archive_create) (RegisterMacro (Some t) (Some y))) = ST_OK.
Proof.
  intros h t y. destruct (macros_run h archive_create [] eq_refl ltac:(constructor)) as (ps & E & _).
  apply (register_macro_ok _ ps t y E).
Qed.
