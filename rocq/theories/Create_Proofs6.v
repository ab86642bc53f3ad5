(** Creating srcML: text instead of a document (C57). *)
From Verif Require Import Base Text_Model Text_Spec Text_Proofs3 Api_Model Api_Spec Api_Proofs Api_Proofs3 Writer_Model Writer_Spec Archive_Model Archive_Spec Archive_Proofs2 Archive_Proofs3 Archive_Proofs4 Input_Model Create_Model Create_Spec Create_Proofs Create_Proofs2 Create_Proofs3 Create_Proofs4 Create_Proofs5.
Local Open Scope N_scope.

Definition op_text (o : eop) : Prop := match o with ESet _ | EStr _ => True | _ => False end.
Definition op_strings (t : list eop) : list bytes := flat_map (fun o => match o with EStr s => [s] | _ => [] end) t.
Lemma op_strings_app : forall x y, op_strings (x ++ y) = op_strings x ++ op_strings y. Proof. intros. apply flat_map_app. Qed.
Lemma last_rev : forall (s : bytes), s <> [] -> exists r, rev s = last s 0 :: r.
Proof. intros s H. destruct (exists_last H) as (l & c & ->). exists (rev l). rewrite rev_app_distr, last_last. reflexivity. Qed.
Lemma line_text : forall s, s <> [] -> Forall op_text (line_ops s) /\ op_strings (line_ops s) <> [] /\ concat (op_strings (line_ops s)) = line s.
Proof.
  intros s H. unfold line_ops, line. destruct (last_rev s H) as (r & E). rewrite E. destruct s as [|c s]; [contradiction|]. set (z := last (c :: s) 0) in *.
  destruct (N.eqb_spec z 10) as [->|NE].
  - split; [repeat constructor|]. split; [discriminate|]. reflexivity.
  - split; [repeat constructor|]. split; [discriminate|]. cbn [op_strings flat_map app concat].
    destruct z as [|p]; [reflexivity|]. destruct p as [p|p|]; try reflexivity. destruct p as [p|p|]; try reflexivity. destruct p as [p|p|]; try reflexivity. destruct p as [p|p|]; try reflexivity. contradiction.
Qed.
Lemma request_text : forall m q s, printed m q s -> Forall op_text (write_request m q) /\ (s <> None -> op_strings (write_request m q) <> []) /\
  concat (op_strings (write_request m q)) = match s with Some s => s | None => [] end.
Proof.
  assert (MAIN : forall m u s, match u with None => s = None | Some (_, v) => match m with Plain => False | Fragment => exists x, outer v = Ok x /\ x <> [] /\ s = Some (line x)
      | Raw => exists x, inner v = Ok x /\ s = Some (match x with [] => [] | _ => line x end) end end ->
    Forall op_text (main_unit m u) /\ (s <> None -> op_strings (main_unit m u) <> []) /\ concat (op_strings (main_unit m u)) = match s with Some s => s | None => [] end).
  { intros m u s H. destruct u as [[own v]|]; [|subst s; repeat split; [constructor|congruence]]. destruct m; cbn [main_unit]; [destruct H| |].
    - destruct H as (x & E & NE & ->). rewrite E. destruct (line_text x NE) as (A & B & C). split; [exact A|]. split; [intros _; exact B|exact C].
    - destruct H as (x & E & ->). rewrite E. destruct x as [|c x]; [repeat split; [repeat constructor|discriminate]|]. destruct (line_text (c :: x) ltac:(discriminate)) as (A & B & C).
      split; [exact A|]. split; [intros _; exact B|exact C]. }
  intros m [w|[|b|n|x|[|u us]] u'] s H; cbn [printed] in H; cbn [write_request].
  - subst s. repeat split; [constructor|congruence].
  - apply MAIN. destruct u' as [[own v]|]; exact H.
  - subst s. repeat split; [repeat constructor|discriminate|]. cbn [op_strings flat_map app concat]. apply app_nil_r.
  - destruct H as (d & -> & ->). repeat split; [repeat constructor|discriminate].
  - destruct H as [NE ->]. destruct (line_text x NE) as (A & B & C). split; [exact A|]. split; [intros _; exact B|exact C].
  - cbn [length Nat.ltb Nat.leb map app]. apply MAIN. destruct u' as [[own v]|]; exact H.
  - destruct H.
Qed.
Lemma interleave_text : forall m ms p t, interleave m ms p t -> forall xs, Forall2 (printed m) (scheduled ms) xs -> Forall op_text p ->
  Forall op_text t /\ concat (op_strings t) = concat (op_strings p) ++ text_of xs /\ (op_strings p <> [] \/ Exists (fun x => x <> None) xs -> op_strings t <> []).
Proof.
  intros m ms p t H. induction H as [|c ms p t H IH|q ms p t H IH|o ms p t H IH]; intros xs R Q.
  - inversion R; subst. repeat split; [constructor|]. intros [A|A]; [exact A|inversion A].
  - destruct (IH xs R Q) as (A & B & C). split; [constructor; [exact I|exact A]|]. split; [exact B|exact C].
  - change (scheduled (MSchedule q :: ms)) with (q :: scheduled ms) in R. inversion R as [|x s l l' R1 R2]; subst. destruct (request_text _ _ _ R1) as (T1 & T2 & T3).
    destruct (IH l' R2 (proj2 (Forall_app _ _ _) (conj Q T1))) as (A & B & C). split; [exact A|]. rewrite op_strings_app in *. split.
    + rewrite B, concat_app, T3, <- app_assoc. reflexivity.
    + intros D. apply C. destruct D as [D|D]; [left; intros E; apply app_eq_nil in E; destruct E; contradiction|]. inversion D as [x l D1|x l D1]; subst; [|right; exact D1].
      left. intros E. apply app_eq_nil in E. destruct E as [_ E]. apply (T2 D1 E).
  - inversion Q as [|x y Q1 Q2]; subst. destruct (IH xs R Q2) as (A & B & C). split; [constructor; assumption|]. destruct o; try contradiction.
    + split; [exact B|]. intros D. apply C. exact D.
    + split; [|discriminate]. cbn [op_strings flat_map app concat]. fold (op_strings t) (op_strings p). rewrite B, app_assoc. reflexivity.
Qed.
(** the archive while only text is written *)
Definition texting (m : am) (s : bytes) (w : bool) : Prop := am_trans m = None /\ (exists id, am_buf m = Buffer id false s) /\ am_raw m = w /\ am_memory m = None /\ am_files m = [].
Lemma text_run : forall t a m s w, texting m s w -> Forall op_text t ->
  exists rs m', arun m (calls_of a t) = Ok (rs, m') /\ texting m' (s ++ concat (op_strings t)) (w || match op_strings t with [] => false | _ => true end).
Proof.
  induction t as [|o t IH]; intros a m s w T F; [exists [], m; split; [reflexivity|]; cbn; rewrite app_nil_r, orb_false_r; exact T|]. inversion F as [|x y F1 F2]; subst. destruct T as (T1 & (id & T2) & T3 & T4 & T5).
  destruct o as [c|u|b|]; try contradiction.
  - cbn [calls_of arun astep]. destruct (step (am_a m) c) as [st a'] eqn:E. cbn [obind fst snd]. set (m1 := AM a' _ _ _ _ _ _ _ _ _ _ _).
    destruct (IH (snd (step a c)) m1 s w) as (rs & m' & R & D); [repeat split; try assumption; exists id; exact T2|exact F2|]. rewrite R. cbn [obind fst snd]. eexists _, m'. split; [reflexivity|exact D].
  - cbn [calls_of arun]. destruct (raw_step m b T1 id false s T2) as (m1 & E & U1 & U2 & U3 & U4 & U5 & U6 & U7 & U8). unfold raw in E. rewrite E. cbn [obind fst snd].
    destruct (IH a m1 (s ++ b) true) as (rs & m' & R & D); [split; [exact U1|]; split; [exists id; exact U2|]; split; [exact U3|]; split; [rewrite U4; exact T4|rewrite U6; exact T5]|exact F2|].
    rewrite R. cbn [obind fst snd]. eexists _, m'. split; [reflexivity|]. cbn [op_strings flat_map app concat orb] in *. fold (op_strings t). rewrite orb_true_r. rewrite <- app_assoc in D. exact D.
Qed.
Lemma text_end : forall m s (closed : bool), texting m s true -> exists rs m1, arun m (if closed then [Close] else []) = Ok (rs, m1) /\ am_files (if closed then m1 else archive_free m1) = [s].
Proof.
  intros m s closed (T1 & (id & T2) & T3 & T4 & T5). destruct closed.
  - cbn [arun astep]. unfold close.
    assert (EQ : (match am_type m, am_raw m, am_trans m with IO_WRITE, false, None => obind (create_trans m) (fun t => Ok (set_trans m (am_buf m) (Some t))) | _, _, _ => Ok m end) = Ok m) by (rewrite T3; destruct (am_type m); reflexivity).
    rewrite EQ. cbn [obind]. unfold close_trans. rewrite T1, T3, T2. cbn [obind]. unfold deliver. cbn [set_trans am_memory]. rewrite T4. eexists _, _. split; [reflexivity|]. cbn. rewrite T5. reflexivity.
  - exists [], m. split; [reflexivity|]. unfold archive_free. rewrite T1, T2. unfold set_trans, deliver. cbn. rewrite T5. reflexivity.
Qed.
Lemma texting_settings : forall cs m s w, texting m s w -> exists rs m', arun m (map Setting cs) = Ok (rs, m') /\ texting m' s w.
Proof.
  intros cs m s w T. assert (E : exists a, map Setting cs = calls_of a (map ESet cs)).
  { exists archive_create. generalize archive_create. induction cs as [|c cs IH]; intros a; [reflexivity|]. cbn [map calls_of]. f_equal. apply IH. }
  destruct E as (a & ->). assert (N : op_strings (map ESet cs) = []) by (clear; induction cs; [reflexivity|assumption]).
  destruct (text_run (map ESet cs) a m s w T) as (rs & m' & R & D); [apply Forall_map, Forall_forall; intros; exact I|]. rewrite N in D. cbn in D. rewrite app_nil_r, orb_false_r in D. exists rs, m'. split; assumption.
Qed.
Lemma outputs_text : forall r ins t xs, starts r ins t -> Forall2 (printed (c_mode r)) (all_sources ins) xs -> Exists (fun x => x <> None) xs ->
  (exists m, outputs r ins t m) /\ forall m, outputs r ins t m -> am_files m = [text_of xs].
Proof.
  intros r ins t xs (cs & ms & w & fl & SE & HA & IL) R X. pose proof (eq_sym (closes_well _ _ _ _ _ HA)) as CL. set (closed := ends_well ins) in *. rewrite <- (handle_scheduled _ _ _ _ _ HA) in R.
  destruct (interleave_text _ _ _ _ IL xs R ltac:(constructor)) as (A & B & C). specialize (C (or_intror X)). cbn [op_strings flat_map concat app] in B. fold (op_strings t) in B.
  assert (E : exists rs m1, arun new_am (OpenOutput true true :: map Setting cs ++ calls_of (run cs archive_create) t ++ (if closed then [Close] else [])) = Ok (rs, m1) /\
            am_files (if closed then m1 else archive_free m1) = [text_of xs]).
  { cbn [arun astep negb obind fst snd]. set (m0 := AM _ _ _ _ _ _ _ _ _ _ _ _).
    destruct (texting_settings cs m0 [] false) as (r1 & m1 & E1 & T1); [repeat split; exists 0%nat; reflexivity|]. rewrite arun_app, E1. cbn [obind fst snd].
    destruct (text_run t (run cs archive_create) m1 [] false T1 A) as (r2 & m2 & E2 & T2). rewrite arun_app, E2. cbn [obind fst snd]. cbn [app orb] in T2. rewrite B in T2.
    destruct (op_strings t) as [|z l]; [contradiction|]. destruct (text_end m2 _ closed T2) as (r3 & m3 & E3 & T3). rewrite E3. cbn [obind fst snd]. eexists _, m3. split; [reflexivity|exact T3]. }
  destruct E as (rs & m1 & E & D). split.
  - exists (if closed then m1 else archive_free m1). exists cs, ms, w, false, fl, rs, m1. split; [exact SE|]. split; [exact HA|]. split; [exact IL|]. cbv zeta. rewrite <- CL. split; [exact E|reflexivity].
  - intros m (cs' & ms' & w' & rf & fl' & rs' & m1' & SE' & HA' & IL' & E' & ->). rewrite SE in SE'. injection SE' as <-. rewrite HA in HA'. injection HA' as <- <- <- <-.
    cbv zeta in E'. rewrite <- CL, E in E'. injection E' as <- <-. rewrite <- CL. exact D.
Qed.
