(** The parser test: files, errors and summary (C64). *)
From Coq Require Import Sorting.Sorted Sorting.Permutation.
From Verif Require Import Base Text_Model Ptest_Model Ptest_Spec Ptest_Proofs Ptest_Proofs2 Ptest_Proofs3.
Local Open Scope N_scope.

Definition number_for (q : request) (s : state) : nat := S (if fresh_for q s then 0 else count s).
Definition line_for (q : request) (s : state) : nat := if fresh_for q s then 0%nat else line_count s.
Lemma marks_one : forall color c l u n q is t, marks color ((if Nat.leb 75 c then 0 else c) + length (digits n) + 1) is t -> marks color c ((l, u, n, q) :: is) ((if Nat.leb 75 c then wrap else []) ++ mark color (same q) n ++ txt " " ++ t).
Proof. intros color c l u n q is t H. destruct (Nat.leb 75 c) eqn:E; [apply Nat.leb_le in E; apply m_wrap; assumption|apply Nat.leb_gt in E; apply m_more; assumption]. Qed.
Definition item_for (q : request) (s : state) : item := (counted_as q s, newer (url s) q, number_for q s, q).
Definition noted (z : list bytes) (i : item) : list bytes := add_summary (head_of i) (number_of i) z.
Lemma entry_text : forall color q s s' o, entry color q s = Ok (s', o) -> (fresh_for q s = true -> has_language q) ->
  count s' = number_for q s /\ url s' = newer (url s) q /\
  (line_count s' = ((if Nat.leb 75 (line_for q s) then 0 else line_for q s) + length (digits (number_for q s)) + 1)%nat /\
   o = (if fresh_for q s then header (counted_as q s) (newer (url s) q) else []) ++ (if Nat.leb 75 (line_for q s) then wrap else []) ++ mark color (same q) (number_for q s) ++ txt " ") /\
  (if same q then errors s' = errors s /\ summary s' = summary s
   else exists e, error_of color (item_for q s) e /\ errors s' = errors s ++ [e] /\ summary s' = noted (summary s) (item_for q s)).
Proof.
  intros color q s s' o H L. unfold entry in H. fold (fresh_for q s) (same q) (newer (url s) q) in H.
  set (u := newer (url s) q) in *. set (n := number_for q s) in *. change (S (if fresh_for q s then 0%nat else count s)) with n in H.
  set (lc := ((if Nat.leb 75 (line_for q s) then 0 else line_for q s) + length (digits n) + 1)%nat). set (w := if Nat.leb 75 (line_for q s) then wrap else []).
  assert (X : exists st1 st2, (st1, st2) = (fun f m e z => State (r_file q) n (S (total s)) lc u (bump (counted_as q s) (ltotal s)) m f (counted_as q s) e z,
      (if fresh_for q s then header (counted_as q s) u else []) ++ w ++ mark color (same q) n ++ txt " ") /\
      (if same q then Ok (st1 (failed s) (misses s) (errors s) (summary s), st2)
       else obind (shown (r_xml q) (r_again q)) (fun '(a, b) => obind (error_text color (counted_as q s) u (r_file q) n a b) (fun e =>
           Ok (st1 (S (failed s)) (bump (counted_as q s) (misses s)) (errors s ++ [e]) (add_summary (summary_head (counted_as q s) u (r_file q)) n (summary s)), st2)))) = Ok (s', o)).
  { unfold counted_as. destruct (fresh_for q s) eqn:F; [destruct (r_language q) as [l|] eqn:R; [|exfalso; exact (L eq_refl R)]|].
    - eexists _, _. split; [reflexivity|]. unfold lc, w, line_for. rewrite F. exact H.
    - eexists _, _. split; [reflexivity|]. unfold lc, w, line_for. rewrite F. exact H. }
  clear H. destruct X as (st1 & st2 & ST & H). injection ST as -> ->. destruct (same q) eqn:E.
  - injection H as <- <-. cbn [count url errors summary line_count]. repeat split.
  - destruct (shown (r_xml q) (r_again q)) as [[a b]|] eqn:S; [|discriminate H]. cbn [obind] in H. destruct (error_text color (counted_as q s) u (r_file q) n a b) as [e|] eqn:T; [|discriminate H]. cbn [obind] in H.
    injection H as <- <-. cbn [count url errors summary line_count]. split; [reflexivity|]. split; [reflexivity|]. split; [split; reflexivity|]. exists e. split; [|split; reflexivity].
    exists a, b. split; [exact S|]. split; [|exact T]. apply shown_cut; [exact S|]. intros Q. unfold same in E. rewrite Q, beqb_same in E. discriminate E.
Qed.
Definition sections (color : bool) (is : list item) (s s' : state) : Prop :=
  exists es, errors s' = errors s ++ es /\ Forall2 (error_of color) (filter failing is) es /\ summary s' = fold_left noted (filter failing is) (summary s).
Lemma sections_app : forall color a b s s1 s2, sections color a s s1 -> sections color b s1 s2 -> sections color (a ++ b) s s2.
Proof.
  intros color a b s s1 s2 (e1 & A1 & A2 & A3) (e2 & B1 & B2 & B3). exists (e1 ++ e2). rewrite filter_app. split; [rewrite B1, A1, app_assoc; reflexivity|]. split; [apply Forall2_app; assumption|]. rewrite fold_left_app, <- A3. exact B3.
Qed.
Lemma sections_one : forall color q s s', (if same q then errors s' = errors s /\ summary s' = summary s
   else exists e, error_of color (item_for q s) e /\ errors s' = errors s ++ [e] /\ summary s' = noted (summary s) (item_for q s)) -> sections color [item_for q s] s s'.
Proof.
  intros color q s s' H. unfold sections. cbn [filter]. unfold failing at 1 2. cbn [snd item_for]. destruct (same q); cbn [negb].
  - destruct H as (H1 & H2). exists []. rewrite app_nil_r. split; [exact H1|]. split; [constructor|exact H2].
  - destruct H as (e & H1 & H2 & H3). exists [e]. split; [exact H2|]. split; [repeat constructor; exact H1|exact H3].
Qed.
Lemma rest_of_file : forall color f, f <> [] -> forall qs s s' o, Forall (fun r => r_file r = f) qs -> previous s = f -> entries color qs s = Ok (s', o) ->
  marks color (line_count s) (numbered (unit_language s) (url s) (S (count s)) qs) o /\ sections color (numbered (unit_language s) (url s) (S (count s)) qs) s s' /\ url s' = fold_left newer qs (url s) /\ previous s' = f.
Proof.
  intros color f N. induction qs as [|q qs IH]; intros s s' o F P H.
  - injection H as <- <-. cbn [numbered]. split; [constructor|]. split; [exists []; rewrite app_nil_r; repeat split; constructor|]. split; [reflexivity|exact P].
  - cbn [entries] in H. destruct (entry color q s) as [[s1 o1]|] eqn:E; [|discriminate H]. cbn [obind fst snd] in H. destruct (entries color qs s1) as [[s2 o2]|] eqn:E2; [|discriminate H]. injection H as <- <-.
    inversion F as [|x l F1 F2]; subst x l.
    assert (R : fresh_for q s = false). { unfold fresh_for. rewrite P, F1, beqb_same. destruct f; [contradiction|reflexivity]. }
    assert (L : fresh_for q s = true -> has_language q) by (intros K; congruence).
    destruct (entry_text color q s s1 o1 E L) as (T1 & T2 & (W & O) & T4). destruct (entry_counts color q s s1 o1 E L) as (C1 & C2 & _).
    assert (Q : item_for q s = (unit_language s, newer (url s) q, S (count s), q)) by (unfold item_for, counted_as, number_for; rewrite R; reflexivity).
    apply sections_one in T4. rewrite Q in T4. unfold number_for in T1, W, O. unfold line_for in W, O. rewrite R in T1, W, O. unfold counted_as in C2. rewrite R in C2.
    destruct (IH s1 s2 o2 F2 ltac:(rewrite C1; exact F1) E2) as (D1 & D2 & D3 & D4). rewrite C2, T2, T1 in D1, D2. rewrite W in D1. rewrite T2 in D3. cbn [numbered fold_left]. split; [|split; [|split; [exact D3|exact D4]]].
    + rewrite O. cbn [app]. rewrite <- !app_assoc. apply marks_one. exact D1.
    + exact (sections_app color [_] _ s s1 s2 T4 D2).
Qed.
Lemma all_files : forall color p gs, files p gs -> forall s s' o, (p = None -> previous s = []) -> (forall f, p = Some f -> previous s = f) -> entries color (concat gs) s = Ok (s', o) ->
  exists ts, o = concat ts /\ Forall2 (file_text color) (items (url s) gs) ts /\ sections color (concat (items (url s) gs)) s s'.
Proof.
  intros color p gs F. induction F as [p|p q qs gs F1 F2 F3 F4 F5 IH]; intros s s' o P1 P2 H.
  - injection H as <- <-. exists []. repeat split; [constructor|]. exists []. rewrite app_nil_r. repeat split; constructor.
  - cbn [concat app] in H. cbn [entries] in H. destruct (entry color q s) as [[s1 o1]|] eqn:E; [|discriminate H]. cbn [obind fst snd] in H.
    destruct (entries color (qs ++ concat gs) s1) as [[s2 o2]|] eqn:E2; [|discriminate H]. injection H as <- <-.
    assert (A : forall qs s, entries color (qs ++ concat gs) s = obind (entries color qs s) (fun r => obind (entries color (concat gs) (fst r)) (fun t => Ok (fst t, snd r ++ snd t)))).
    { clear. intros qs. induction qs as [|q qs IH]; intros s; [cbn [app entries obind fst snd]; destruct (entries color (concat gs) s) as [[a b]|]; reflexivity|]. cbn [app entries]. destruct (entry color q s) as [[s1 o1]|]; [|reflexivity].
      cbn [obind fst snd]. rewrite IH. destruct (entries color qs s1) as [[s2 o2]|]; [|reflexivity]. cbn [obind fst snd]. destruct (entries color (concat gs) s2) as [[s3 o3]|]; [|reflexivity]. cbn [obind fst snd]. rewrite app_assoc. reflexivity. }
    rewrite A in E2. destruct (entries color qs s1) as [[s3 o3]|] eqn:E3; [|discriminate E2]. cbn [obind fst snd] in E2. destruct (entries color (concat gs) s3) as [[s4 o4]|] eqn:E4; [|discriminate E2]. injection E2 as <- <-.
    assert (R : fresh_for q s = true).
    { unfold fresh_for. destruct p as [f|]; [|rewrite (P1 eq_refl); reflexivity]. rewrite (P2 f eq_refl). destruct f as [|c f]; [reflexivity|]. destruct (beqb (r_file q) (c :: f)) eqn:B; [|reflexivity]. apply beqb_iff in B. exfalso. apply F2. rewrite B. reflexivity. }
    destruct (entry_text color q s s1 o1 E (fun _ => F4)) as (T1 & T2 & (W & O) & T4). destruct (entry_counts color q s s1 o1 E (fun _ => F4)) as (C1 & C2 & _).
    assert (Q : item_for q s = (first_language (q :: qs), newer (url s) q, 1%nat, q)) by (unfold item_for, counted_as, number_for; rewrite R; reflexivity).
    apply sections_one in T4. rewrite Q in T4. unfold number_for in T1, W, O. unfold line_for in W, O. rewrite R in T1, W, O. cbn [Nat.leb Nat.add app] in W, O. unfold counted_as in C2, O. rewrite R in C2, O. change (match r_language q with Some l => l | None => [] end) with (first_language (q :: qs)) in C2, O.
    destruct (rest_of_file color (r_file q) F1 qs s1 s3 o3 F3 C1 E3) as (D1 & D2 & D3 & D4). rewrite C2, T2, T1 in D1, D2. rewrite W in D1. rewrite T2 in D3.
    destruct (IH s3 s4 o4 ltac:(discriminate) ltac:(intros f [= <-]; exact D4) E4) as (ts & G1 & G2 & G3). rewrite D3 in G2, G3.
    exists ((o1 ++ o3) :: ts). cbn [items concat fold_left numbered]. split; [rewrite G1, app_assoc; reflexivity|]. split.
    + constructor; [|exact G2]. rewrite O, <- !app_assoc. constructor. apply m_more; [lia|exact D1].
    + apply (sections_app color _ _ s s3 s4); [exact (sections_app color [_] _ s s1 s3 T4 D2)|exact G3].
Qed.
(** ** The summary *)
Lemma fits_length : forall i, fits i -> length (head_of i) = 74%nat.
Proof. intros [[[l u] n] q] (H1 & H2 & H3). cbn [head_of]. unfold summary_head, left_in. rewrite !app_length, !repeat_length. change (length (txt " ")) with 1%nat. lia. Qed.
Lemma joined_more : forall ks n, ks <> [] -> joined (ks ++ [n]) = joined ks ++ txt "," ++ digits n.
Proof.
  induction ks as [|k ks IH]; intros n H; [contradiction|]. destruct ks as [|j ks]; [reflexivity|].
  change (digits k ++ txt "," ++ joined ((j :: ks) ++ [n]) = (digits k ++ txt "," ++ joined (j :: ks)) ++ txt "," ++ digits n). rewrite IH by discriminate. rewrite <- !app_assoc. reflexivity.
Qed.
Lemma apart_last : forall rs h ks ks', apart (rs ++ [(h, ks)]) -> apart (rs ++ [(h, ks')]).
Proof.
  induction rs as [|r rs IH]; intros h ks ks' H; [exact I|]. destruct rs as [|x rs]; [exact H|]. destruct H as (H1 & H2). split; [exact H1|exact (IH h ks ks' H2)].
Qed.
Lemma apart_more : forall rs r x, apart (rs ++ [r]) -> fst r <> fst x -> apart (rs ++ [r; x]).
Proof.
  induction rs as [|y rs IH]; intros r x H D; [split; [exact D|exact I]|]. destruct rs as [|z rs]; [destruct H as (H1 & H2); repeat split; assumption|]. destruct H as (H1 & H2). split; [exact H1|exact (IH r x H2 D)].
Qed.
Lemma summary_lines : forall is, Forall fits is -> exists rs, runs_of is rs /\ fold_left noted is [] = map line_of rs.
Proof.
  intros is. induction is as [|i is IH] using rev_ind; intros F; [exists []; repeat split; constructor|]. apply Forall_app in F. destruct F as (F1 & F2). inversion F2 as [|x l F3 _]; subst x l.
  destruct (IH F1) as (rs & (R1 & R2 & R3) & E). rewrite fold_left_app. cbn [fold_left]. rewrite E. unfold noted, add_summary. rewrite <- map_rev.
  destruct rs as [|[h ks] rs _] using rev_ind.
  - exists [(head_of i, [number_of i])]. split; [|reflexivity]. repeat split; [|repeat constructor; discriminate]. rewrite map_app, R1. reflexivity.
  - rewrite rev_app_distr. cbn [rev app map].
    assert (LK : length h = 74%nat).
    { apply Forall_app in R2. destruct R2 as (_ & R2). inversion R2 as [|x l K _]; subst. cbn [snd] in K. destruct ks as [|k ks]; [contradiction|].
      assert (J : In (h, k) (map (fun i => (head_of i, number_of i)) is)) by (rewrite R1, flat_map_app; apply in_or_app; right; cbn [flat_map fst snd map]; left; reflexivity).
      apply in_map_iff in J. destruct J as (j & J1 & J2). injection J1 as <- _. apply fits_length. rewrite Forall_forall in F1. exact (F1 j J2). }
    assert (LI : length (head_of i) = 74%nat) by (apply fits_length; exact F3).
    assert (FN : firstn (length (head_of i)) (line_of (h, ks)) = h) by (unfold line_of; cbn [fst snd]; rewrite LI, <- LK, firstn_app, Nat.sub_diag, firstn_all, firstn_O, app_nil_r; reflexivity).
    rewrite FN. rewrite map_rev, rev_involutive. apply Forall_app in R2. destruct R2 as (R2 & R4). inversion R4 as [|x l K _]; subst x l. cbn [snd] in K.
    destruct (beqb h (head_of i)) eqn:B.
    + apply beqb_iff in B. exists (rs ++ [(h, ks ++ [number_of i])]). split; [split; [|split]|].
      * rewrite map_app, R1, !flat_map_app. cbn [flat_map map fst snd]. rewrite map_app, !app_nil_r, <- app_assoc, B. reflexivity.
      * apply Forall_app. split; [exact R2|]. repeat constructor. cbn [snd]. destruct ks; discriminate.
      * exact (apart_last rs h ks _ R3).
      * rewrite map_app. cbn [map]. unfold line_of. cbn [fst snd]. rewrite (joined_more ks _ K), <- !app_assoc. reflexivity.
    + exists (rs ++ [(h, ks); (head_of i, [number_of i])]). split; [split; [|split]|].
      * rewrite map_app, R1, !flat_map_app. cbn [flat_map map fst snd]. rewrite !app_nil_r, <- app_assoc. reflexivity.
      * apply Forall_app. split; [exact R2|]. repeat constructor; [exact K|discriminate].
      * apply apart_more; [exact R3|]. cbn [fst]. intros Q. rewrite Q, beqb_same in B. discriminate B.
      * rewrite map_app, (map_app _ rs). cbn [map]. rewrite <- app_assoc. reflexivity.
Qed.
(** ** The whole report *)
Lemma whole_report : forall color percent gs out, files None gs -> gs <> [] -> parser_test color percent (concat gs) = Ok out ->
  exists ts es ls cs, out = concat ts ++ errors_text es ++ summary_text ls ++ cs /\ Forall2 (file_text color) (items [] gs) ts /\
    Forall2 (error_of color) (filter failing (concat (items [] gs))) es /\ sorted_lines ls /\
    (Forall fits (concat (items [] gs)) -> exists rs, runs_of (filter failing (concat (items [] gs))) rs /\ Permutation (map line_of rs) ls).
Proof.
  intros color percent gs out F N H. unfold parser_test in H. destruct (entries color (concat gs) nothing) as [[s o]|] eqn:E; [|discriminate H]. cbn [obind] in H. injection H as <-.
  destruct (all_files color None gs F nothing s o ltac:(reflexivity) ltac:(discriminate) E) as (ts & A & B & (es & C1 & C2 & C3)). cbn [url nothing errors summary app] in *.
  assert (T : total s <> 0%nat).
  { inversion F as [|p q qs r F1 F2 F3 F4 F5]; subst; [contradiction|]. cbn [concat app entries] in E. destruct (entry color q nothing) as [[s1 o1]|] eqn:E1; [|discriminate E]. cbn [obind fst snd] in E.
    destruct (entries color (qs ++ concat r) s1) as [[s2 o2]|] eqn:E2; [|discriminate E]. injection E as <- _. destruct (entry_counts color q nothing s1 o1 E1 (fun _ => F4)) as (_ & _ & T & _).
    assert (M : forall l a b w, entries color l a = Ok (b, w) -> (total a <= total b)%nat).
    { clear. induction l as [|q l IH]; intros a b w H; [injection H as <- _; lia|]. cbn [entries] in H. destruct (entry color q a) as [[a1 w1]|] eqn:E; [|discriminate H]. cbn [obind fst snd] in H.
      destruct (entries color l a1) as [[a2 w2]|] eqn:E2; [|discriminate H]. injection H as <- _. assert (K : (total a <= total a1)%nat); [|specialize (IH a1 a2 w2 E2); lia].
      destruct (r_language q) eqn:R; [destruct (entry_counts color q a a1 w1 E) as (_ & _ & K & _); [intros _ Z; congruence|lia]|].
      destruct (fresh_for q a) eqn:Z; [unfold entry in E; fold (fresh_for q a) in E; rewrite Z, R in E; injection E as <- _; cbn [total]; lia|].
      destruct (entry_counts color q a a1 w1 E) as (_ & _ & K & _); [congruence|lia]. }
    specialize (M _ _ _ _ E2). lia. }
  rewrite (report_text color percent s T), C1, A. exists ts, es, (sort (summary s)), (counts_text color percent (failed s) (total s) (table_of s)).
  split; [reflexivity|]. split; [exact B|]. split; [exact C2|]. split; [apply sort_sorted|]. intros G.
  destruct (summary_lines (filter failing (concat (items [] gs)))) as (rs & R & Q).
  - apply Forall_forall. intros i I. apply filter_In in I. rewrite Forall_forall in G. exact (G i (proj1 I)).
  - exists rs. split; [exact R|]. rewrite <- Q, <- C3. apply sort_perm.
Qed.
(** ** The report is there *)
Lemma entry_there : forall color q s, harmless q -> exists r, entry color q s = Ok r.
Proof.
  intros color q s H. unfold entry. fold (fresh_for q s) (same q).
  assert (X : forall (l u : bytes) n (st : bytes -> state * bytes) (r : state * bytes), exists v, (if same q then Ok r else obind (shown (r_xml q) (r_again q)) (fun '(a, b) => obind (error_text color l u (r_file q) n a b) (fun e => Ok (st e)))) = Ok v).
  { intros l u n st r. destruct H as [H|(H1 & H2)]; [rewrite H; eexists; reflexivity|]. destruct (same q); [eexists; reflexivity|]. unfold shown.
    destruct (Nat.ltb 5 (newlines (r_xml q)) || Nat.ltb 5 (newlines (r_again q))) eqn:L; [apply long_b in L; contradiction|]. cbn [obind]. unfold error_text. destruct (r_xml q); [contradiction|]. cbn [obind]. eexists. reflexivity. }
  destruct (fresh_for q s); [destruct (r_language q); [|eexists; reflexivity]|]; apply X.
Qed.
Lemma report_there : forall color percent qs, Forall harmless qs -> exists out, parser_test color percent qs = Ok out.
Proof.
  intros color percent qs H. assert (X : forall s, exists r, entries color qs s = Ok r).
  { induction H as [|q qs H1 H2 IH]; intros s; [eexists; reflexivity|]. cbn [entries]. destruct (entry_there color q s H1) as (r & ->). cbn [obind]. destruct (IH (fst r)) as (t & ->). cbn [obind]. eexists. reflexivity. }
  unfold parser_test. destruct (X nothing) as ([s o] & ->). cbn [obind]. eexists. reflexivity.
Qed.
