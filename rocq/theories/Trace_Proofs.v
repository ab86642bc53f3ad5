(** Proofs about the log of --verbose. *)
From Verif Require Import Base Text_Model Text_Spec Ptest_Model Ptest_Format Trace_Model Trace_Spec.
Local Open Scope N_scope.

(** ** the log after entries *)
Definition logged (l : list entry) (t : trace) : Prop :=
  exists lines, t = Trace true (sources l) (others l) (concat lines) /\ length lines = length l /\ (forall i s, nth_error lines i = Some s -> shows_entry l i s).
Lemma setw_field w d : in_field w d (right_in w d).
Proof. exists (w - length d)%nat. split; [reflexivity | lia]. Qed.
Lemma sources_app a b : sources (a ++ b) = (sources a + sources b)%nat.
Proof. unfold sources. rewrite filter_app, app_length. reflexivity. Qed.
Lemma others_app a b : others (a ++ b) = (others a + others b)%nat.
Proof. unfold others. rewrite filter_app, app_length. reflexivity. Qed.
Lemma sum_length l : (sources l + others l = length l)%nat.
Proof. induction l as [|e l IH]; [reflexivity|]. unfold sources, others in *. destruct e; simpl in *; lia. Qed.
Lemma logged_new : logged [] (new_trace true).
Proof. exists []. split; [reflexivity|]. split; [reflexivity|]. intros [|i] s H; discriminate H. Qed.
Lemma shows_app l e i s : shows_entry l i s -> shows_entry (l ++ [e]) i s.
Proof.
  unfold shows_entry. intros H. destruct (nth_error l i) eqn:E; [|contradiction].
  assert (L : (i < length l)%nat) by (apply nth_error_Some; congruence).
  rewrite nth_error_app1 by exact L. rewrite E, firstn_app. replace (S i - length l)%nat with 0%nat by lia. rewrite firstn_O, app_nil_r. exact H.
Qed.
Lemma logged_app l e t o a b :
  logged l t -> shows_entry (l ++ [e]) (length l) o -> a = sources (l ++ [e]) -> b = others (l ++ [e]) -> logged (l ++ [e]) (Trace true a b (t_out t ++ o)).
Proof.
  intros (ls & -> & L & F) Ho -> ->. exists (ls ++ [o]). cbn [t_out]. split; [|split].
  - rewrite concat_app. simpl. rewrite app_nil_r. reflexivity.
  - rewrite !app_length, L. reflexivity.
  - intros i s H. destruct (Nat.lt_ge_cases i (length ls)) as [C|C].
    + rewrite nth_error_app1 in H by exact C. apply shows_app. exact (F i s H).
    + rewrite nth_error_app2 in H by exact C. destruct (i - length ls)%nat as [|k] eqn:E.
      * simpl in H. injection H as <-. replace i with (length l) by lia. exact Ho.
      * simpl in H. destruct k; discriminate H.
Qed.
Lemma nth_last (l : list entry) e : nth_error (l ++ [e]) (length l) = Some e.
Proof. rewrite nth_error_app2 by lia. rewrite Nat.sub_diag. reflexivity. Qed.
Lemma firstn_last (l : list entry) e : firstn (S (length l)) (l ++ [e]) = l ++ [e].
Proof. apply firstn_all2. rewrite app_length. simpl. lia. Qed.

Lemma put_source l t c s : logged l t -> c <> 45 -> logged (l ++ [Source s]) (put_string (put_char t c) s).
Proof.
  intros H C. pose proof H as (ls & -> & _). unfold put_char. cbn [t_enabled negb t_count t_skipped t_out].
  rewrite (proj2 (N.eqb_neq c 45) C). cbn [negb]. unfold put_string. cbn [t_enabled negb t_count t_skipped t_out]. rewrite <- !app_assoc.
  apply (logged_app l (Source s) _ _ _ _ H).
  - unfold shows_entry. rewrite nth_last, firstn_last. exists (digits (S (sources l))), (right_in 5 (digits (S (sources l)))).
    split; [|split; [apply setw_field | reflexivity]]. rewrite sources_app. change (sources [Source s]) with 1%nat. rewrite Nat.add_1_r. apply digits_decimal.
  - rewrite sources_app. change (sources [Source s]) with 1%nat. lia.
  - rewrite others_app. change (others [Source s]) with 0%nat. lia.
Qed.
Lemma put_other l t s : logged l t -> logged (l ++ [Other s]) (put_string (put_char t 45) s).
Proof.
  intros H. pose proof H as (ls & -> & _). unfold put_char. cbn [t_enabled negb t_count t_skipped t_out]. rewrite N.eqb_refl. cbn [negb].
  unfold put_string. cbn [t_enabled negb t_count t_skipped t_out]. rewrite <- !app_assoc.
  apply (logged_app l (Other s) _ _ _ _ H).
  - unfold shows_entry. rewrite nth_last. reflexivity.
  - rewrite sources_app. change (sources [Other s]) with 0%nat. lia.
  - rewrite others_app. change (others [Other s]) with 1%nat. lia.
Qed.
Lemma skip_hidden l t : logged l t -> logged (l ++ [Hidden]) (skip t).
Proof.
  intros H. pose proof H as (ls & -> & _). unfold skip. cbn [t_enabled t_count t_skipped t_out]. rewrite <- (app_nil_r (concat ls)).
  apply (logged_app l Hidden _ [] _ _ H).
  - unfold shows_entry. rewrite nth_last. reflexivity.
  - rewrite sources_app. change (sources [Hidden]) with 0%nat. lia.
  - rewrite others_app. change (others [Hidden]) with 1%nat. lia.
Qed.
Lemma end_logged l t : logged l t -> log_for l (end_trace t).
Proof.
  intros (ls & -> & L & F). unfold end_trace. cbn [t_enabled negb t_count t_skipped t_out].
  exists ls, (digits (sources l)), (digits (others l)), (digits (sources l + others l + 0)).
  split; [reflexivity|]. split; [exact L|]. split; [exact F|]. split; [apply digits_decimal|]. split; [apply digits_decimal|].
  rewrite Nat.add_0_r, sum_length. apply digits_decimal.
Qed.

(** ** conversions *)
Definition entry_of (quiet : bool) (r : option answer) : list entry :=
  match r with
  | Some (NoLanguage f) => [if quiet then Hidden else Other (repeat 32 52 ++ name_text f)]
  | Some (Parsed l n h f) => [Source (left_in 4 l ++ [32] ++ right_in 5 (digits n) ++ with_space h ++ with_space f)]
  | _ => []
  end.
Lemma create_logged quiet rs : forall l t, logged l t -> logged (l ++ flat_map (entry_of quiet) rs) (fold_left (log_request true quiet) rs t).
Proof.
  induction rs as [|r rs IH]; intros l t H; [simpl; rewrite app_nil_r; exact H|].
  cbn [fold_left flat_map]. rewrite app_assoc. apply IH. destruct r as [[f|lg n h f|]|]; cbn [entry_of log_request].
  - destruct quiet; [apply skip_hidden; exact H | apply put_other; exact H].
  - apply put_source; [exact H | discriminate].
  - rewrite app_nil_r. exact H.
  - rewrite app_nil_r. exact H.
Qed.
Lemma create_log_ok quiet rs : log_for (flat_map (entry_of quiet) rs) (create_log true quiet rs).
Proof. apply end_logged. exact (create_logged quiet rs [] _ logged_new). Qed.

(** ** without --verbose *)
Lemma create_log_off quiet rs : create_log false quiet rs = [].
Proof.
  unfold create_log. enough (F : fold_left (log_request false quiet) rs (new_trace false) = new_trace false) by (rewrite F; reflexivity).
  induction rs as [|r rs IH]; [reflexivity|]. cbn [fold_left].
  replace (log_request false quiet (new_trace false) r) with (new_trace false) by (destruct r as [[f|lg n h f|]|]; reflexivity). exact IH.
Qed.
Lemma log_units_off p us : forall k, log_units p k (new_trace false) us = new_trace false.
Proof. induction us as [|[f|] us IH]; intros k; [reflexivity | exact (IH (S k)) | exact (IH k)]. Qed.
Lemma extract_log_off d az : extract_log false d az = [].
Proof.
  unfold extract_log. enough (F : fold_left (fun t us => log_units (prefix_of d) 0 t us) az (new_trace false) = new_trace false) by (rewrite F; reflexivity).
  induction az as [|us az IH]; [reflexivity|]. cbn [fold_left]. rewrite log_units_off. exact IH.
Qed.

(** ** extractions *)
Fixpoint unit_entries (p : bytes) (k : nat) (us : list (option bytes)) : list entry :=
  match us with
  | [] => []
  | None :: us => unit_entries p k us
  | Some f :: us => (if N.of_nat (S k) mod 256 =? 45 then Other (p ++ [47] ++ f) else Source (p ++ [47] ++ f)) :: unit_entries p (S k) us
  end.
Lemma units_logged p us : forall k l t, logged l t -> logged (l ++ unit_entries p k us) (log_units p k t us).
Proof.
  induction us as [|[f|] us IH]; intros k l t H; cbn [unit_entries log_units].
  - rewrite app_nil_r. exact H.
  - change (?x :: unit_entries p (S k) us) with ([x] ++ unit_entries p (S k) us). rewrite app_assoc. apply IH.
    destruct (N.eqb_spec (N.of_nat (S k) mod 256) 45) as [E|E]; [rewrite E; apply put_other; exact H | apply put_source; assumption].
  - apply IH. exact H.
Qed.
Lemma archives_logged p az : forall l t, logged l t -> logged (l ++ flat_map (unit_entries p 0) az) (fold_left (fun t us => log_units p 0 t us) az t).
Proof.
  induction az as [|us az IH]; intros l t H; cbn [fold_left flat_map].
  - rewrite app_nil_r. exact H.
  - rewrite app_assoc. apply IH. apply units_logged. exact H.
Qed.
Lemma extract_log_ok d az : log_for (flat_map (unit_entries (prefix_of d) 0) az) (extract_log true d az).
Proof. apply end_logged. exact (archives_logged (prefix_of d) az [] _ logged_new). Qed.

Lemma unit_entries_few p us : forall k, (k + length (names us) < 45)%nat -> unit_entries p k us = map (fun f => Source (p ++ [47] ++ f)) (names us).
Proof.
  induction us as [|[f|] us IH]; intros k H; cbn [unit_entries names flat_map] in *.
  - reflexivity.
  - cbn [app length map] in *. fold (names us) in *. rewrite N.mod_small by lia. rewrite (proj2 (N.eqb_neq (N.of_nat (S k)) 45)) by lia.
    f_equal. apply IH. lia.
  - apply IH. exact H.
Qed.
Lemma extract_few d az : Forall (fun us => (length (names us) < 45)%nat) az ->
  log_for (map (fun f => Source (prefix_of d ++ [47] ++ f)) (flat_map names az)) (extract_log true d az).
Proof.
  intros F. enough (E : flat_map (unit_entries (prefix_of d) 0) az = map (fun f => Source (prefix_of d ++ [47] ++ f)) (flat_map names az)) by (rewrite <- E; apply extract_log_ok).
  induction F as [|us az H F IH]; [reflexivity|]. cbn [flat_map]. rewrite map_app, IH. f_equal. apply unit_entries_few. exact H.
Qed.

(** ** how many are taken for other files *)
Lemma unit_others p us : forall k, others (unit_entries p k us) = ((k + length (names us) + 211) / 256 - (k + 211) / 256)%nat.
Proof.
  induction us as [|[f|] us IH]; intros k; cbn [unit_entries names flat_map].
  - cbn [length]. rewrite Nat.add_0_r, Nat.sub_diag. reflexivity.
  - fold (names us). cbn [app length]. unfold others in *. cbn [filter]. specialize (IH (S k)).
    replace (k + S (length (names us)))%nat with (S k + length (names us))%nat by lia.
    pose proof (Nat.div_mod (k + 211) 256 ltac:(lia)) as D1. pose proof (Nat.mod_upper_bound (k + 211) 256 ltac:(lia)) as B1.
    pose proof (Nat.div_mod (S k + 211) 256 ltac:(lia)) as D2. pose proof (Nat.mod_upper_bound (S k + 211) 256 ltac:(lia)) as B2.
    pose proof (Nat.div_le_mono (S k + 211) (S k + length (names us) + 211) 256 ltac:(lia) ltac:(lia)) as M.
    pose proof (N.div_mod (N.of_nat (S k)) 256 ltac:(lia)) as D3. pose proof (N.mod_lt (N.of_nat (S k)) 256 ltac:(lia)) as B3.
    destruct (N.eqb_spec (N.of_nat (S k) mod 256) 45) as [E|E]; cbn [is_source negb filter length]; rewrite IH; clear IH;
      remember ((k + 211) / 256)%nat as a; remember ((S k + 211) / 256)%nat as b; remember ((S k + length (names us) + 211) / 256)%nat as c;
      remember (N.of_nat (S k) / 256) as q; remember (N.of_nat (S k) mod 256) as r; remember ((k + 211) mod 256)%nat as r1; remember ((S k + 211) mod 256)%nat as r2; lia.
  - apply IH.
Qed.
Lemma extract_others d az : exists l, log_for l (extract_log true d az) /\
  others l = list_sum (map (fun us => (length (names us) + 211) / 256)%nat az) /\ length l = length (flat_map names az).
Proof.
  exists (flat_map (unit_entries (prefix_of d) 0) az). split; [apply extract_log_ok|]. induction az as [|us az [I1 I2]]; [split; reflexivity|].
  cbn [flat_map map list_sum fold_right]. rewrite others_app, !app_length, I1, I2, unit_others. split.
  - change ((0 + 211) / 256)%nat with 0%nat. rewrite Nat.sub_0_r. reflexivity.
  - f_equal. clear. enough (G : forall k, length (unit_entries (prefix_of d) k us) = length (names us)) by apply G.
    induction us as [|[f|] us IH]; intros k; cbn [unit_entries names flat_map]; [reflexivity | cbn [length app]; f_equal; apply IH | apply IH].
Qed.
Lemma log_counts l out : log_for l out -> counts_in out (N.of_nat (sources l)) (N.of_nat (others l)) 0 (N.of_nat (length l)).
Proof.
  intros (ls & a & b & c & -> & _ & _ & A & B & C). exists (concat ls), a, b, [48], c. split; [|split; [exact A | split; [exact B | split; [|exact C]]]].
  - reflexivity.
  - exact (digits_decimal 0).
Qed.

Lemma create_describes quiet rs : exists l, log_for l (create_log true quiet rs) /\ Forall2 (describes quiet) (no_errors rs) l.
Proof.
  exists (flat_map (entry_of quiet) rs). split; [apply create_log_ok|]. induction rs as [|r rs IH]; [constructor|].
  unfold no_errors in *. cbn [flat_map]. destruct r as [[f|lg n h f|]|]; cbn [entry_of app]; try exact IH; constructor; try exact IH.
  - destruct quiet; constructor. destruct f; reflexivity.
  - unfold left_in. rewrite <- !app_assoc. destruct h as [h|], f as [f|]; cbn [with_space];
      (eapply (describes_source quiet lg _ n (digits n) _ (Some h) (Some f)) || eapply (describes_source quiet lg _ n (digits n) _ (Some h) None)
       || eapply (describes_source quiet lg _ n (digits n) _ None (Some f)) || eapply (describes_source quiet lg _ n (digits n) _ None None));
      [lia | apply digits_decimal | apply setw_field | lia | apply digits_decimal | apply setw_field | lia | apply digits_decimal | apply setw_field | lia | apply digits_decimal | apply setw_field].
Qed.
Lemma create_counts quiet rs :
  counts_in (create_log true quiet rs) (N.of_nat (parsed rs)) (N.of_nat (without_language rs)) 0 (N.of_nat (parsed rs + without_language rs)).
Proof.
  destruct (create_describes quiet rs) as (l & L & F). apply log_counts in L. rewrite <- sum_length in L.
  unfold parsed, without_language.
  assert (E : sources l = length (filter (fun r => match r with Parsed _ _ _ _ => true | _ => false end) (no_errors rs)) /\
              others l = length (filter (fun r => match r with NoLanguage _ => true | _ => false end) (no_errors rs))).
  { clear L. unfold sources, others. induction F as [|r e xs l D F [I1 I2]]; [split; reflexivity|].
    inversion D; subst; cbn [filter is_source negb length]; rewrite I1, I2; split; reflexivity. }
  destruct E as [E1 E2]. rewrite <- E1, <- E2. exact L.
Qed.
Lemma prefix_place d f : prefix_of d ++ [47] ++ f = place d f.
Proof. unfold prefix_of, place, beqb. destruct (list_eq_dec N.eq_dec d (txt ".")), (list_eq_dec N.eq_dec d (txt "./")); reflexivity. Qed.
Lemma extract_places d az : Forall (fun us => (length (names us) < 45)%nat) az ->
  log_for (map (fun f => Source (place d f)) (flat_map names az)) (extract_log true d az).
Proof.
  intros F. rewrite (map_ext _ (fun f => Source (prefix_of d ++ [47] ++ f)) (fun f => f_equal Source (eq_sym (prefix_place d f)))). exact (extract_few d az F).
Qed.
(** the numbers of the last line of an extraction *)
Definition taken_for_others (az : list (list (option bytes))) : nat := list_sum (map (fun us => (length (names us) + 211) / 256)%nat az).
Lemma extract_counts d az : counts_in (extract_log true d az) (N.of_nat (length (flat_map names az) - taken_for_others az)) (N.of_nat (taken_for_others az)) 0 (N.of_nat (length (flat_map names az))).
Proof.
  destruct (extract_others d az) as (l & L & O & E). apply log_counts in L. unfold taken_for_others. rewrite <- O, <- E. rewrite <- (sum_length l) in *.
  replace (sources l + others l - others l)%nat with (sources l) by lia. exact L.
Qed.
