(** C31: URIs and inputs. *)
From Verif Require Import Base Text_Model Text_Spec Text_Proofs Text_Proofs3 Writer_Model Writer_Spec Writer_Proofs2 Writer_Proofs10 Input_Model Input_Spec.

Lemma strstr_some : forall s p n, strstr s p = Some n ->
  s = firstn n s ++ p ++ skipn (n + length p) s /\ forall x y, firstn n s ++ p = x ++ p ++ y -> y = [].
Proof.
  induction s as [|c s IH]; intros p n E; cbn [strstr] in E.
  - destruct (beqb (firstn (length p) []) p) eqn:B; [|discriminate E]. injection E as <-. apply beqb_true in B.
    rewrite firstn_nil in B. subst p. split; [reflexivity|]. intros x y H. cbn in H. destruct x; [cbn in H; symmetry; exact H|discriminate H].
  - destruct (beqb (firstn (length p) (c :: s)) p) eqn:B.
    + injection E as <-. apply beqb_true in B. split; [cbn [firstn app Nat.add]; rewrite <- B at 1; symmetry; apply firstn_skipn|].
      cbn [firstn app]. intros x y H. apply (f_equal (@length N)) in H. rewrite !app_length in H. destruct y; [reflexivity|cbn in H; lia].
    + destruct (strstr s p) as [m|] eqn:M; [|discriminate E]. cbn in E. injection E as <-.
      destruct (IH p m M) as [A U]. split; [cbn [firstn app skipn Nat.add]; f_equal; exact A|].
      cbn [firstn app]. intros x y H. destruct x as [|d x]; cbn [app] in H.
      * exfalso. assert (K : firstn (length p) (c :: s) = p).
        { rewrite A. change (c :: firstn m s ++ p ++ skipn (m + length p) s) with ((c :: firstn m s) ++ p ++ skipn (m + length p) s).
          rewrite app_assoc. change ((c :: firstn m s) ++ p) with (c :: firstn m s ++ p). rewrite H, <- app_assoc.
          rewrite firstn_app, firstn_all, Nat.sub_diag. cbn [firstn]. apply app_nil_r. }
        rewrite K, beqb_refl in B. discriminate B.
      * injection H as _ H. exact (U x y H).
Qed.
Lemma prefix_at (s p : bytes) n : s = firstn n s ++ p ++ skipn (n + length p) s -> n <= length s -> firstn (n + length p) s = firstn n s ++ p.
Proof.
  intros E L. assert (La : length (firstn n s) = n) by (rewrite firstn_length; lia). revert E La. generalize (firstn n s) (skipn (n + length p) s). intros a r E La.
  rewrite E, app_assoc, firstn_app. replace (n + length p - length (a ++ p)) with 0 by (rewrite app_length; lia). cbn [firstn]. rewrite app_nil_r.
  apply firstn_all2. rewrite app_length. lia.
Qed.
Lemma later_twice (s p : bytes) m n : m < n -> n <= length s -> p <> [] ->
  s = firstn m s ++ p ++ skipn (m + length p) s -> s = firstn n s ++ p ++ skipn (n + length p) s ->
  exists y, firstn n s ++ p = firstn m s ++ p ++ y /\ y <> [].
Proof.
  intros K L P A E. exists (skipn (m + length p) (firstn n s ++ p)). split.
  - rewrite <- (firstn_skipn (m + length p) (firstn n s ++ p)) at 1. rewrite app_assoc. f_equal.
    rewrite <- (prefix_at s p n E L), firstn_firstn. replace (Nat.min (m + length p) (n + length p)) with (m + length p) by lia.
    apply (prefix_at s p m A). lia.
  - intros Q. apply (f_equal (@length N)) in Q. rewrite skipn_length, app_length, firstn_length in Q. cbn [length] in Q. lia.
Qed.
Lemma strstr_first s p n : p <> [] -> (forall x y, firstn n s ++ p = x ++ p ++ y -> y = []) -> s = firstn n s ++ p ++ skipn (n + length p) s -> n <= length s -> strstr s p = Some n.
Proof.
  intros P U E L. destruct (strstr s p) as [m|] eqn:M.
  - f_equal. destruct (strstr_some s p m M) as [A V].
    destruct (Nat.lt_trichotomy m n) as [K|[K|K]]; [exfalso|exact K|exfalso].
    + destruct (later_twice s p m n K L P A E) as [y [Z1 Z2]]. exact (Z2 (U _ _ Z1)).
    + destruct (Nat.le_gt_cases m (length s)) as [Lm|Lm].
      * destruct (later_twice s p n m K Lm P E A) as [y [Z1 Z2]]. exact (Z2 (V _ _ Z1)).
      * rewrite (firstn_all2 s) in A by lia. apply (f_equal (@length N)) in A. rewrite !app_length in A. destruct p; [contradiction P; reflexivity|cbn [length] in A; lia].
  - exfalso. apply (not_contains s p P M). exists (firstn n s), (skipn (n + length p) s). exact E.
Qed.

(** * URIs *)
Lemma strstr_protocol p r : no_byte 58 p -> strstr (p ++ SEPARATOR ++ r) SEPARATOR = Some (length p).
Proof.
  intros Np. apply strstr_first; [discriminate| | |rewrite app_length; lia].
  - rewrite firstn_app, Nat.sub_diag, firstn_all. cbn [firstn]. rewrite app_nil_r. clear r. revert Np. induction p as [|c p IH]; intros Np x y H.
    + apply (f_equal (@length N)) in H. rewrite !app_length in H. destruct y; [reflexivity|cbn in H; lia].
    + destruct x as [|d x]; cbn [app] in H; [injection H as H _; exfalso; exact (Forall_inv Np H)|]. injection H as _ H. exact (IH (Forall_inv_tail Np) x y H).
  - rewrite firstn_app, Nat.sub_diag, firstn_all. cbn [firstn]. rewrite app_nil_r. rewrite skipn_app.
    rewrite (skipn_all2 p) by lia. replace (length p + length SEPARATOR - length p) with (length SEPARATOR) by lia. reflexivity.
Qed.
Lemma split_prefixed p r : no_byte 58 p -> split_uri (add_protocol p r) = (p, r) /\ uri_protocol (add_protocol p r) = p /\ uri_resource (add_protocol p r) = r.
Proof.
  intros Np. unfold split_uri, uri_protocol, uri_resource, add_protocol. rewrite (strstr_protocol p r Np).
  assert (A : firstn (length p) (p ++ SEPARATOR ++ r) = p) by (rewrite firstn_app, Nat.sub_diag, firstn_all; cbn [firstn]; apply app_nil_r).
  assert (B : skipn (length p + length SEPARATOR) (p ++ SEPARATOR ++ r) = r).
  { rewrite skipn_app, (skipn_all2 p) by lia. replace (length p + length SEPARATOR - length p) with (length SEPARATOR) by lia. reflexivity. }
  rewrite A, B. repeat split.
Qed.
Lemma split_any i p r : split_uri i = (p, r) -> contains i SEPARATOR ->
  i = p ++ SEPARATOR ++ r /\ (forall x y, p ++ SEPARATOR = x ++ SEPARATOR ++ y -> y = []) /\ uri_protocol i = p /\ uri_resource i = r.
Proof.
  unfold split_uri, uri_protocol, uri_resource. intros E C. destruct (strstr i SEPARATOR) as [n|] eqn:S.
  - destruct (strstr_some _ _ _ S) as [A U]. injection E as <- <-. split; [exact A|]. split; [exact U|]. split; reflexivity.
  - exfalso. exact (not_contains i SEPARATOR ltac:(discriminate) S C).
Qed.
Lemma split_none i : ~ contains i SEPARATOR -> split_uri i = ([], i) /\ uri_protocol i = [] /\ uri_resource i = i.
Proof. intros C. unfold split_uri, uri_protocol, uri_resource. rewrite (strstr_none i SEPARATOR ltac:(discriminate) C). repeat split. Qed.
Lemma contains_some i : contains i SEPARATOR -> exists n, strstr i SEPARATOR = Some n.
Proof. intros C. destruct (strstr i SEPARATOR) as [n|] eqn:S; [exists n; reflexivity|]. exfalso. exact (not_contains i SEPARATOR ltac:(discriminate) S C). Qed.
Lemma add_prefixed i : contains i SEPARATOR -> add_uri i = i.
Proof. intros C. destruct (contains_some i C) as [n E]. unfold add_uri. rewrite E. reflexivity. Qed.
Lemma add_contains p r : contains (add_protocol p r) SEPARATOR.
Proof. exists p, r. reflexivity. Qed.
Lemma add_once i : add_uri (add_uri i) = add_uri i.
Proof.
  destruct (strstr i SEPARATOR) as [n|] eqn:S; [assert (E : add_uri i = i) by (unfold add_uri; rewrite S; reflexivity); rewrite E; exact E|].
  assert (Ad : add_uri i = (if beqb i (txt "/dev/stdin") || beqb i (txt "-") then add_protocol (txt "stdin") (txt "-")
     else match strstr i (txt "http:"), strstr i (txt "https:") with Some _, Some _ => i | _, _ => add_protocol (txt "file") i end)) by (unfold add_uri; rewrite S; reflexivity).
  destruct (beqb i (txt "/dev/stdin") || beqb i (txt "-")); [rewrite Ad; apply add_prefixed, add_contains|].
  destruct (strstr i (txt "http:")); [destruct (strstr i (txt "https:"))|]; rewrite Ad; [exact Ad|apply add_prefixed, add_contains|apply add_prefixed, add_contains].
Qed.
Lemma add_local i : ~ contains i SEPARATOR -> i <> txt "-" -> i <> txt "/dev/stdin" -> ~ (contains i (txt "http:") /\ contains i (txt "https:")) ->
  add_uri i = add_protocol (txt "file") i /\ uri_protocol (add_uri i) = txt "file" /\ uri_resource (add_uri i) = i.
Proof.
  intros C A B D. assert (E : add_uri i = add_protocol (txt "file") i).
  { unfold add_uri. rewrite (strstr_none i SEPARATOR ltac:(discriminate) C).
    destruct (beqb i (txt "/dev/stdin")) eqn:Q; [contradiction (B (proj1 (beqb_true _ _) Q))|]. destruct (beqb i (txt "-")) eqn:Q'; [contradiction (A (proj1 (beqb_true _ _) Q'))|]. cbn [orb].
    destruct (strstr i (txt "http:")) as [n|] eqn:N1; [|reflexivity]. destruct (strstr i (txt "https:")) as [m|] eqn:N2; [|reflexivity].
    exfalso. apply D. destruct (strstr_some _ _ _ N1) as [E1 _]. destruct (strstr_some _ _ _ N2) as [E2 _]. split; [eexists; eexists; exact E1|eexists; eexists; exact E2]. }
  rewrite E. split; [reflexivity|]. apply split_prefixed. repeat constructor; discriminate.
Qed.

(** * Extensions *)
Lemma rfind_some c s n : rfind c s = Some n -> s = firstn n s ++ c :: skipn (S n) s /\ no_byte c (skipn (S n) s).
Proof.
  revert n. induction s as [|x s IH]; intros n E; cbn [rfind] in E; [discriminate E|].
  destruct (rfind c s) as [m|] eqn:M.
  - injection E as <-. destruct (IH m eq_refl) as [A B]. split; [cbn [firstn app skipn]; f_equal; exact A|exact B].
  - destruct (x =? c)%N eqn:Q; [|discriminate E]. injection E as <-. apply N.eqb_eq in Q. subst x. split; [reflexivity|].
    cbn [skipn]. clear -M. induction s as [|y s IH]; [constructor|]. cbn [rfind] in M. destruct (rfind c s) eqn:R; [discriminate M|].
    destruct (y =? c)%N eqn:Q; [discriminate M|]. apply N.eqb_neq in Q. constructor; [exact Q|exact (IH eq_refl)].
Qed.
Lemma rfind_none c s : rfind c s = None -> no_byte c s.
Proof.
  induction s as [|x s IH]; intros E; [constructor|]. cbn [rfind] in E. destruct (rfind c s); [discriminate E|]. destruct (x =? c)%N eqn:Q; [discriminate E|].
  apply N.eqb_neq in Q. constructor; [exact Q|exact (IH eq_refl)].
Qed.
Lemma extension_split f : f = pop_extension f ++ cur_extension f /\ (cur_extension f = [] <-> no_byte 46 f) /\
  (cur_extension f <> [] -> exists e, cur_extension f = 46%N :: e /\ no_byte 46 e).
Proof.
  unfold pop_extension, cur_extension. destruct (rfind 46 f) as [n|] eqn:R.
  - destruct (rfind_some _ _ _ R) as [A B]. rewrite firstn_skipn. split; [reflexivity|].
    assert (E : skipn n f = 46%N :: skipn (S n) f).
    { assert (L : n <= length f) by (apply (f_equal (@length N)) in A; rewrite app_length, firstn_length in A; cbn [length] in A; lia).
      rewrite A at 1. rewrite skipn_app, firstn_length, (skipn_all2 (firstn n f)) by (rewrite firstn_length; lia).
      replace (n - Nat.min n (length f)) with 0 by lia. reflexivity. }
    rewrite E. split; [|intros _; eexists; split; [reflexivity|exact B]]. split; [intros F; discriminate F|].
    intros F. exfalso. rewrite A in F. apply Forall_app in F. destruct F as [_ F]. exact (Forall_inv F eq_refl).
  - rewrite app_nil_r. split; [reflexivity|]. split; [split; [intros _; exact (rfind_none _ _ R)|reflexivity]|intros F; contradiction F; reflexivity].
Qed.
Lemma in_ext e l : existsb (beqb e) l = true <-> In e l.
Proof.
  rewrite existsb_exists. split; [intros [x [I B]]; rewrite (proj1 (beqb_true _ _) B); exact I|intros I; exists e; split; [exact I|apply beqb_refl]].
Qed.
Lemma peel_ok : forall fuel f cs ars plain ext cs' ars', length f <= fuel -> peel fuel f cs ars = (plain, ext, cs', ars') ->
  exists es, f = plain ++ concat (rev es) /\ Forall (fun e => is_compressed e || is_archive_ext e = true) es /\
    cs' = cs ++ filter is_compressed es /\ ars' = ars ++ filter is_archive_ext es /\
    ext = cur_extension plain /\ (ext = [] \/ is_compressed ext || is_archive_ext ext = false).
Proof.
  assert (Done : forall f cs ars plain ext cs' ars', (cur_extension f = [] \/ is_compressed (cur_extension f) || is_archive_ext (cur_extension f) = false) ->
    (f, cur_extension f, cs, ars) = (plain, ext, cs', ars') ->
    exists es, f = plain ++ concat (rev es) /\ Forall (fun e => is_compressed e || is_archive_ext e = true) es /\
    cs' = cs ++ filter is_compressed es /\ ars' = ars ++ filter is_archive_ext es /\
    ext = cur_extension plain /\ (ext = [] \/ is_compressed ext || is_archive_ext ext = false)).
  { intros f cs ars plain ext cs' ars' O E. injection E as <- <- <- <-. exists []. cbn. rewrite !app_nil_r. repeat split; [constructor|exact O]. }
  induction fuel as [|fuel IH]; intros f cs ars plain ext cs' ars' L E; cbn [peel] in E.
  - destruct f; [|cbn in L; lia]. apply (Done [] cs ars plain ext cs' ars' (or_introl eq_refl) E).
  - destruct (beqb (cur_extension f) []) eqn:B; cbn [negb andb] in E; [apply (Done _ _ _ _ _ _ _ (or_introl (proj1 (beqb_true _ _) B)) E)|].
    destruct (is_compressed (cur_extension f) || is_archive_ext (cur_extension f)) eqn:K; [|apply (Done _ _ _ _ _ _ _ (or_intror K) E)].
    destruct (extension_split f) as [S [_ X]].
    assert (Ne : cur_extension f <> []) by (intros F; rewrite F in B; discriminate B). destruct (X Ne) as [e [Ee _]].
    apply IH in E; [|apply (f_equal (@length N)) in S; rewrite app_length, Ee in S; cbn [length] in S; lia].
    destruct E as [es [F1 [F2 [F3 [F4 [F5 F6]]]]]]. exists (cur_extension f :: es). cbn [rev concat filter].
    split; [rewrite concat_app, app_assoc, <- F1; cbn [concat]; rewrite app_nil_r; exact S|]. split; [constructor; [exact K|exact F2]|].
    split; [rewrite F3; destruct (is_compressed (cur_extension f)); [rewrite <- app_assoc; reflexivity|reflexivity]|].
    split; [rewrite F4; destruct (is_archive_ext (cur_extension f)); [rewrite <- app_assoc; reflexivity|reflexivity]|]. split; [exact F5|exact F6].
Qed.
Lemma local_input isdir i : i <> [] -> ~ contains i SEPARATOR -> i <> txt "-" -> i <> txt "/dev/stdin" -> ~ (contains i (txt "http:") /\ contains i (txt "https:")) ->
  no_byte 63 i -> exists s, input_of isdir i = Ok s /\ in_protocol s = txt "file" /\ in_resource s = i /\ in_isdir s = isdir i /\
    (isdir i = false -> exists es, i = in_plain s ++ concat (rev es) /\ Forall container es /\
       in_compressions s = filter is_compressed es /\ in_archives s = filter is_archive_ext es /\
       in_extension s = cur_extension (in_plain s) /\ ~ container (in_extension s) /\
       in_state s = (if beqb (in_extension s) (txt ".xml") || beqb (in_extension s) (txt ".srcml") then KSrcml else KSrc)).
Proof.
  intros Ne C A B D Q. destruct (add_local i C A B D) as [E _]. unfold input_of. rewrite E.
  destruct (split_prefixed (txt "file") i) as [Sp _]; [repeat constructor; discriminate|]. rewrite Sp.
  change (negb (beqb (txt "file") (txt "text")) && negb (beqb (txt "file") (txt "filelist")) && negb (beqb (txt "file") (txt "stdin"))) with true. cbn iota.
  assert (Sc : strchr i 63 = None) by (apply strchr_none; exact Q). rewrite Sc. change (beqb (txt "file") (txt "file")) with true. cbn [andb].
  destruct i as [|c i'] eqn:I; [contradiction Ne; reflexivity|]. rewrite <- I in *. clear I.
  change (negb (beqb (txt "file") (txt "text"))) with true. rewrite andb_true_r.
  destruct (isdir i) eqn:Dr; cbn [negb].
  - eexists. split; [reflexivity|]. repeat split. discriminate.
  - destruct (peel (length i) i [] []) as [[[plain ext] cs] ars] eqn:P.
    eexists. split; [reflexivity|]. split; [reflexivity|]. split; [reflexivity|]. split; [reflexivity|]. intros _.
    destruct (peel_ok _ _ _ _ _ _ _ _ (le_n _) P) as [es [F1 [F2 [F3 [F4 [F5 F6]]]]]]. exists es. cbn [in_plain in_compressions in_archives in_extension in_state].
    split; [exact F1|]. split.
    { eapply Forall_impl; [|exact F2]. intros e K. apply orb_true_iff in K. unfold is_compressed, is_archive_ext in K. rewrite !in_ext in K. destruct K as [K|K]; [right|left]; exact K. }
    split; [exact F3|]. split; [exact F4|]. split; [exact F5|]. split.
    + intros K. destruct F6 as [F6|F6].
      * rewrite F6 in K. destruct K as [K|K]; vm_compute in K; repeat destruct K as [K|K]; try discriminate K; exact K.
      * apply orb_false_iff in F6. destruct F6 as [G1 G2]. destruct K as [K|K]; apply in_ext in K; unfold is_compressed, is_archive_ext in *; congruence.
    + destruct (beqb (txt "file") (txt "text")) eqn:Z; [discriminate Z|]. destruct (beqb i (txt "-")) eqn:Y; [contradiction (A (proj1 (beqb_true _ _) Y))|]. reflexivity.
Qed.
