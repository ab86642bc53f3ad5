(** C61: the bookkeeping of positions, on lists of issued tokens. *)
From Verif Require Import Base Parser_Model Parser_Spec Parser_Proofs3 Places_Model Places_Spec.

Definition start_ok (w : nat -> point) (a : list otok) (x : etype * bool * point) : Prop :=
  let '(e, f, p) := x in
  if is_type e STYPEPREV then True
  else if f then p = w (length (text a)) else exists k, length (text a) <= k /\ p = w k.
Definition end_ok (w : nat -> point) (a : list otok) (x : etype * bool * point) : Prop :=
  let '(e, b, q) := x in
  is_type e STYPEPREV = false -> b = true -> q = before (w (length (text a))).

Definition starts_fine w (l : list otok) (r : list (nat * (etype * bool * point))) : Prop :=
  forall a t b, l = a ++ t :: b -> o_cat t = Kstart -> exists x, kept r (o_id t) = Some x /\ start_ok w a x.
Definition ends_fine w (l : list otok) (r : list (nat * (etype * bool * point))) : Prop :=
  forall a t b, l = a ++ t :: b -> o_cat t = Kend ->
  exists n x, o_of t = Some n /\ kept r n = Some x /\ end_ok w a x.

Definition keys {A} (l : list (nat * A)) : list nat := map fst l.

Lemma kept_in {A} (l : list (nat * A)) n : In n (keys l) <-> exists x, kept l n = Some x.
Proof.
  induction l as [|[m x] r IH]; cbn.
  - split; [contradiction|intros [? ?]; discriminate].
  - destruct (Nat.eqb_spec m n) as [->|N].
    + split; [intros _; exists x; reflexivity|intros _; left; reflexivity].
    + rewrite <- IH. split; [intros [?|?]; [contradiction|assumption]|intros; right; assumption].
Qed.
Lemma kept_new {A} (l : list (nat * A)) m x n : m <> n -> kept ((m, x) :: l) n = kept l n.
Proof. intros H. cbn. destruct (Nat.eqb_spec m n); [contradiction|reflexivity]. Qed.
Lemma kept_same {A} (l : list (nat * A)) m x : kept ((m, x) :: l) m = Some x.
Proof. cbn. rewrite Nat.eqb_refl. reflexivity. Qed.

(** Where a token of [x ++ t :: y] was before [t] came. *)
Lemma inserted {A} (x y : list A) t a u b : x ++ t :: y = a ++ u :: b ->
  (a = x /\ u = t /\ b = y) \/ (exists c, x = a ++ u :: c /\ b = c ++ t :: y) \/
  (exists c, a = x ++ t :: c /\ y = c ++ u :: b).
Proof.
  revert a. induction x as [|z x IH]; intros [|z' a] H; cbn in *.
  - injection H as -> ->. left. repeat split.
  - injection H as -> ->. right; right. exists a. split; reflexivity.
  - injection H as -> <-. right; left. exists x. split; reflexivity.
  - injection H as -> H. destruct (IH _ H) as [[-> [-> ->]]|[[c [-> ->]]|[c [-> ->]]]].
    + left. repeat split.
    + right; left. exists c. split; reflexivity.
    + right; right. exists c. split; reflexivity.
Qed.

Lemma text_mid x t c : o_text t = [] -> text (x ++ t :: c) = text (x ++ c).
Proof. intros H. rewrite !text_app. unfold text at 2. cbn. rewrite H. reflexivity. Qed.

Lemma starts_insert w x y t r : starts_fine w (x ++ y) r -> o_cat t <> Kstart -> (o_text t = [] \/ y = []) ->
  starts_fine w (x ++ t :: y) r.
Proof.
  intros H N T a u b E C. destruct (inserted _ _ _ _ _ _ E) as [[-> [-> ->]]|[[c [-> ->]]|[c [-> ->]]]].
  - contradiction.
  - apply (H a u (c ++ y)); [rewrite <- app_assoc; reflexivity|exact C].
  - destruct T as [T|T]; [|destruct c; discriminate T].
    destruct (H (x ++ c) u b) as [p [P Q]]; [rewrite <- app_assoc; reflexivity|exact C|].
    exists p. split; [exact P|]. destruct p as [[e f] p]. unfold start_ok in *. rewrite (text_mid x t c T). exact Q.
Qed.
Lemma starts_new w x y t r z : starts_fine w (x ++ y) r -> o_text t = [] ->
  start_ok w x z -> (forall u, In u (x ++ y) -> o_id u <> o_id t) ->
  starts_fine w (x ++ t :: y) ((o_id t, z) :: r).
Proof.
  intros H T O F a u b E C. destruct (inserted _ _ _ _ _ _ E) as [[-> [-> ->]]|[[c [-> ->]]|[c [-> ->]]]].
  - exists z. split; [apply kept_same|exact O].
  - destruct (H a u (c ++ y)) as [p [P Q]]; [rewrite <- app_assoc; reflexivity|exact C|].
    exists p. split; [|exact Q]. rewrite kept_new; [exact P|].
    intros X. apply (F u); [rewrite <- app_assoc; apply in_or_app; right; left; reflexivity|congruence].
  - destruct (H (x ++ c) u b) as [p [P Q]]; [rewrite <- app_assoc; reflexivity|exact C|].
    exists p. split.
    + rewrite kept_new; [exact P|]. intros X. apply (F u); [apply in_or_app; right; apply in_or_app; right; left; reflexivity|congruence].
    + destruct p as [[e f] p]. unfold start_ok in *. rewrite (text_mid x t c T). exact Q.
Qed.
Lemma ends_insert w x y t r : ends_fine w (x ++ y) r -> o_cat t <> Kend -> (o_text t = [] \/ y = []) ->
  ends_fine w (x ++ t :: y) r.
Proof.
  intros H N T a u b E C. destruct (inserted _ _ _ _ _ _ E) as [[-> [-> ->]]|[[c [-> ->]]|[c [-> ->]]]].
  - contradiction.
  - apply (H a u (c ++ y)); [rewrite <- app_assoc; reflexivity|exact C].
  - destruct T as [T|T]; [|destruct c; discriminate T].
    destruct (H (x ++ c) u b) as [n [p [M [P Q]]]]; [rewrite <- app_assoc; reflexivity|exact C|].
    exists n, p. split; [exact M|]. split; [exact P|]. destruct p as [[e f] p]. unfold end_ok in *.
    rewrite (text_mid x t c T). exact Q.
Qed.
Lemma ends_new w x y t r n z : ends_fine w (x ++ y) r -> o_text t = [] -> o_of t = Some n ->
  end_ok w x z -> ~ In n (keys r) -> ends_fine w (x ++ t :: y) ((n, z) :: r).
Proof.
  intros H T M O F a u b E C. destruct (inserted _ _ _ _ _ _ E) as [[-> [-> ->]]|[[c [-> ->]]|[c [-> ->]]]].
  - exists n, z. split; [exact M|]. split; [apply kept_same|exact O].
  - destruct (H a u (c ++ y)) as [k [p [K [P Q]]]]; [rewrite <- app_assoc; reflexivity|exact C|].
    exists k, p. split; [exact K|]. split; [|exact Q]. rewrite kept_new; [exact P|].
    intros ->. apply F, kept_in. exists p. exact P.
  - destruct (H (x ++ c) u b) as [k [p [K [P Q]]]]; [rewrite <- app_assoc; reflexivity|exact C|].
    exists k, p. split; [exact K|]. split.
    + rewrite kept_new; [exact P|]. intros ->. apply F, kept_in. exists p. exact P.
    + destruct p as [[e f] p]. unfold end_ok in *. rewrite (text_mid x t c T). exact Q.
Qed.

(** What the bookkeeping [d] has to do with the tokens issued: [f] and then, skipped, [k]; the next
    token's number; comments and elements open. *)
Record good (w : nat -> point) (f k : list otok) (n : nat) (cs : list (option nat)) (os : list nat) (d : places) : Prop :=
  { g_serial : p_serial d = n;
    g_guess : p_guess d = 0;
    g_at : p_at d = length (text (f ++ k));
    g_ends : p_ends d = cs ++ map Some os;
    g_issued : Forall (fun o => o <> None) cs;
    g_tight : p_tight d = true -> p_last d = before (w (length (text f)));
    g_starts : starts_fine w (f ++ k) (p_started d);
    g_finis : ends_fine w (f ++ k) (p_ended d);
    g_ids : Forall (fun t => o_id t < n) (f ++ k);
    g_open : Forall (fun m => m < n) (somes (p_ends d));
    g_once : NoDup (somes (p_ends d));
    g_apart : forall m, In m (somes (p_ends d)) -> ~ In m (keys (p_ended d));
    g_old : Forall (fun m => m < n) (keys (p_ended d));
    g_all : forall m, In m (keys (p_started d)) -> In m (somes (p_ends d)) \/ In m (keys (p_ended d)) }.

Lemma ids_weaken n f k : Forall (fun t => o_id t < n) (f ++ k) -> forall u, In u (f ++ k) -> o_id u <> n.
Proof. intros H u I. rewrite Forall_forall in H. specialize (H u I). lia. Qed.
Lemma nums_up n l : Forall (fun m => m < n) l -> Forall (fun m => m < S n) l.
Proof. intros H. eapply Forall_impl; [|exact H]. cbn. lia. Qed.
Lemma ids_up n l t : Forall (fun t => o_id t < n) l -> o_id t = n -> forall x y, l = x ++ y ->
  Forall (fun t => o_id t < S n) (x ++ t :: y).
Proof.
  intros H I x y E. subst l. apply Forall_app in H as [A B]. apply Forall_app. split.
  - eapply Forall_impl; [|exact A]. cbn. lia.
  - constructor; [lia|]. eapply Forall_impl; [|exact B]. cbn. lia.
Qed.
Lemma text_end x t : text (x ++ [t]) = text x ++ o_text t.
Proof. rewrite text_app. unfold text at 2. cbn. rewrite app_nil_r. reflexivity. Qed.
Lemma text_insert_len x y t : length (text (x ++ t :: y)) = length (text (x ++ y)) + length (o_text t).
Proof. rewrite !text_app. change (text (t :: y)) with (o_text t ++ text y). rewrite !app_length. lia. Qed.

(** Only identity, category, text and the ghost link of a token matter. *)
Lemma good_loosen w f k n cs os d : good w f k n cs os d -> good w f k n cs os (loosen d).
Proof. intros [A B C D E F G H I J K L M N]. constructor; cbn; try assumption. discriminate. Qed.
Lemma good_flush w f k n cs os d : good w f k n cs os d -> good w (f ++ k) [] n cs os (loosen d).
Proof. intros [A B C D E F G H I J K L M N]. constructor; cbn; rewrite ?app_nil_r; try assumption. discriminate. Qed.
(** Moving tokens about without changing their order. *)
Lemma good_move w f k f' k' n cs os d : f' ++ k' = f ++ k -> good w f k n cs os d -> good w f' k' n cs os (loosen d).
Proof. intros Q [A B C D E F G H I J K L M N]. constructor; cbn; rewrite ?Q; try assumption. discriminate. Qed.

(** A token that is no tag. *)
Lemma good_skip_text w f k n cs os d t lt : good w f k n cs os d -> o_id t = n ->
  o_cat t <> Kstart -> o_cat t <> Kend -> o_text t = l_text lt ->
  good w f (k ++ [t]) (S n) cs os (next_at (Some lt) (issue d)).
Proof.
  intros [A B C D E F G H I J K L M N] X S1 S2 T.
  constructor; cbn; try assumption; rewrite ?B; cbn; try (apply nums_up; assumption).
  - congruence.
  - rewrite C, app_assoc, text_end, app_length, T. reflexivity.
  - rewrite app_assoc. apply starts_insert; [rewrite app_nil_r; exact G|exact S1|right; reflexivity].
  - rewrite app_assoc. apply ends_insert; [rewrite app_nil_r; exact H|exact S2|right; reflexivity].
  - rewrite app_assoc. eapply ids_up; [exact I|exact X|rewrite app_nil_r; reflexivity].
Qed.
Lemma good_consume w f k n cs os d t h : good w f k n cs os d -> o_id t = n ->
  o_cat t <> Kstart -> o_cat t <> Kend -> o_text t = match h with Some lt => l_text lt | None => [] end ->
  good w (f ++ k ++ [t]) [] (S n) cs os (Places_Model.consume w h false d).
Proof.
  intros [A B C D E F G H I J K L M N] X S1 S2 T.
  assert (Q : p_at d + match h with Some t => length (l_text t) | None => 0 end = length (text (f ++ k ++ [t]))).
  { rewrite C, app_assoc, text_end, app_length, T. destruct h; reflexivity. }
  constructor; cbn; rewrite ?app_nil_r; try assumption; rewrite ?B; cbn; try (apply nums_up; assumption).
  - congruence.
  - intros _. rewrite Q. reflexivity.
  - rewrite app_assoc. apply starts_insert; [rewrite app_nil_r; exact G|exact S1|right; reflexivity].
  - rewrite app_assoc. apply ends_insert; [rewrite app_nil_r; exact H|exact S2|right; reflexivity].
  - rewrite app_assoc. eapply ids_up; [exact I|exact X|rewrite app_nil_r; reflexivity].
Qed.
Lemma good_consume_skip w f k n cs os d t lt : good w f k n cs os d -> o_id t = n ->
  o_cat t <> Kstart -> o_cat t <> Kend -> o_text t = l_text lt ->
  good w f (k ++ [t]) (S n) cs os (Places_Model.consume w (Some lt) true d).
Proof.
  intros H X S1 S2 T. destruct (good_skip_text _ _ _ _ _ _ _ _ _ H X S1 S2 T) as [A B C D E F G H1 I J K L M N].
  constructor; try assumption. cbn. discriminate.
Qed.
Lemma good_empty w f k n cs os d t : good w f k n cs os d -> o_id t = n -> o_cat t <> Kstart -> o_cat t <> Kend ->
  o_text t = [] -> good w (f ++ k ++ [t]) [] (S n) cs os (issue (loosen d)).
Proof.
  intros [A B C D E F G H I J K L M N] X S1 S2 T.
  constructor; cbn; rewrite ?app_nil_r; try assumption; rewrite ?B; cbn; try (apply nums_up; assumption); try discriminate.
  - congruence.
  - rewrite C, (app_assoc f k), text_end, T, app_nil_r. reflexivity.
  - rewrite app_assoc. apply starts_insert; [rewrite app_nil_r; exact G|exact S1|left; exact T].
  - rewrite app_assoc. apply ends_insert; [rewrite app_nil_r; exact H|exact S2|left; exact T].
  - rewrite app_assoc. eapply ids_up; [exact I|exact X|rewrite app_nil_r; reflexivity].
Qed.

(** Start tags. *)
Lemma good_begin w x y n cs os d t e fl p f k cs' os' : good w f k n cs os d -> x ++ y = f ++ k ->
  o_id t = n -> o_cat t = Kstart -> o_text t = [] -> start_ok w x (e, fl, p) ->
  cs' ++ map Some os' = Some n :: cs ++ map Some os -> Forall (fun o => o <> None) cs' ->
  forall f' k', f' ++ k' = x ++ t :: y ->
  (p_tight d = true -> text f' = text f) ->
  good w f' k' (S n) cs' os' (begin_at e fl p d).
Proof.
  intros [A B C D E F G H I J K L M N] Q X Y T O CS FS f' k' P TT.
  assert (NI : ~ In n (somes (p_ends d))).
  { intros Z. rewrite Forall_forall in J. specialize (J n Z). lia. }
  unfold begin_at. rewrite B. cbn [Nat.ltb Nat.leb]. 
  constructor; cbn; rewrite ?B; cbn; rewrite ?P; try assumption; rewrite ?A; try reflexivity.
  - rewrite text_insert_len, Q, C, T. cbn. lia.
  - rewrite CS, D. reflexivity.
  - intros W. rewrite (TT W). apply F, W.
  - rewrite <- X. apply starts_new; [rewrite Q; exact G|exact T|exact O|]. rewrite Q, X. apply ids_weaken, I.
  - apply ends_insert; [rewrite Q; exact H|congruence|left; exact T].
  - eapply ids_up; [rewrite <- Q in I; exact I|exact X|reflexivity].
  - constructor; [lia|apply nums_up, J].
  - constructor; [exact NI|exact K].
  - intros m [<-|Z]; [|apply L, Z]. intros Z. rewrite Forall_forall in M. specialize (M n Z). lia.
  - apply nums_up, M.
  - intros m [<-|Z]; [left; left; reflexivity|]. destruct (N m Z) as [V|V]; [left; right; exact V|right; exact V].
Qed.

Lemma good_begin_skip w f k n cs os d t c : good w f k n cs os d -> o_id t = n -> o_cat t = Kstart -> o_text t = [] ->
  good w f (k ++ [t]) (S n) (Some n :: cs) os (begin_at (Ecomment c) true (w (p_at d)) d).
Proof.
  intros H X Y T. eapply (good_begin w (f ++ k) [] n cs os d t _ _ _ f k); try eassumption.
  - rewrite app_nil_r. reflexivity.
  - cbn. rewrite (g_at _ _ _ _ _ _ _ H). reflexivity.
  - reflexivity.
  - constructor; [discriminate|apply (g_issued _ _ _ _ _ _ _ H)].
  - rewrite app_assoc. reflexivity.
  - reflexivity.
Qed.
Lemma good_begin_noskip w f k n os d t e : good w f k n [] os d -> o_id t = n -> o_cat t = Kstart -> o_text t = [] ->
  good w (f ++ [t]) k (S n) [] (n :: os) (begin_at e false (w (p_at d)) d).
Proof.
  intros H X Y T. eapply (good_begin w f k n [] os d t _ _ _ f k); try eassumption; try reflexivity.
  - cbn. destruct (is_type e STYPEPREV); [exact I|]. exists (p_at d). rewrite (g_at _ _ _ _ _ _ _ H), text_app, app_length.
    split; [lia|reflexivity].
  - constructor.
  - rewrite <- app_assoc. reflexivity.
  - intros _. rewrite text_end, T, app_nil_r. reflexivity.
Qed.
Lemma good_begin_flush w f k n os d t e : good w f k n [] os d -> o_id t = n -> o_cat t = Kstart -> o_text t = [] ->
  good w (f ++ k ++ [t]) [] (S n) [] (n :: os) (begin_flush w e (loosen d)).
Proof.
  intros H X Y T.
  assert (H1 : good w f k n [] os (if is_type e STYPE then with_type0 (w (p_at d)) (loosen d) else loosen d)).
  { destruct (is_type e STYPE); [|apply good_loosen, H].
    destruct H as [A B C D E F G H I J K L M N]. constructor; cbn; try assumption. discriminate. }
  unfold begin_flush. change (p_at (loosen d)) with (p_at d).
  set (d1 := if is_type e STYPE then _ else _) in *.
  assert (P1 : p_at d1 = length (text (f ++ k))) by apply H1.
  assert (T1 : p_tight d1 = false) by (unfold d1; destruct (is_type e STYPE); reflexivity).
  assert (W : p_at d = p_at d1) by (unfold d1; destruct (is_type e STYPE); reflexivity). 
  clearbody d1. eapply (good_begin w (f ++ k) [] n [] os d1 t _ _ _ f k); try eassumption; try reflexivity.
  - rewrite app_nil_r. reflexivity.
  - cbn. destruct (is_type e STYPEPREV); [exact I|]. rewrite P1. reflexivity.
  - constructor.
  - rewrite app_nil_r, app_assoc. reflexivity.
  - rewrite T1. discriminate.
Qed.

(** End tags. *)
Lemma good_end w x y n cs os d t e b q f k cs' os' m : good w f k n cs os d -> x ++ y = f ++ k ->
  o_id t = n -> o_cat t = Kend -> o_text t = [] -> o_of t = Some m -> end_ok w x (e, b, q) ->
  cs ++ map Some os = Some m :: cs' ++ map Some os' -> Forall (fun o => o <> None) cs' ->
  forall f' k', f' ++ k' = x ++ t :: y -> (p_tight d = true -> text f' = text f) ->
  exists d', finish_at e b q d = Ok d' /\ good w f' k' (S n) cs' os' d'.
Proof.
  intros [A B C D E F G H I J K L M N] Q X Y T O EO CS FS f' k' P TT.
  unfold finish_at. rewrite D, CS.
  assert (DE : p_ends d = Some m :: cs' ++ map Some os') by congruence.
  rewrite DE in J, K, L, N. cbn in J, K, L, N.
  inversion J as [|? ? J1 J2]; subst. inversion K as [|? ? K1 K2]; subst.
  eexists. split; [reflexivity|]. constructor; cbn; rewrite ?B; cbn; rewrite ?P; try assumption; try reflexivity; try congruence.
  - rewrite text_insert_len, Q, C, T. cbn. lia.
  - intros W. rewrite (TT W). apply F, W.
  - apply starts_insert; [rewrite Q; exact G|congruence|left; exact T].
  - apply ends_new; [rewrite Q; exact H|exact T|exact O|exact EO|apply L; left; reflexivity].
  - eapply ids_up; [rewrite <- Q in I; exact I|congruence|reflexivity].
  - apply nums_up. exact J2.
  - intros z Z [<-|V]; [apply K1, Z|]. apply (L z); [right; exact Z|exact V].
  - constructor; [lia|apply nums_up, M].
  - intros z Z. destruct (N z Z) as [[<-|V]|V]; [right; left; reflexivity|left; exact V|right; right; exact V].
Qed.

Lemma good_finish w f k n os d t e m : good w f k n [] (m :: os) d -> o_id t = n -> o_cat t = Kend ->
  o_text t = [] -> o_of t = Some m ->
  exists d', finish e d = Ok d' /\ good w (f ++ [t]) k (S n) [] os d'.
Proof.
  intros H X Y T O.
  assert (H1 : good w f k n [] (m :: os) (if is_type e STYPE then with_type1 (p_last d) d else d)).
  { destruct (is_type e STYPE); [|exact H]. destruct H as [A B C D E F G H I J K L M N]. constructor; cbn; assumption. }
  unfold finish. 
  assert (L1 : p_last d = p_last (if is_type e STYPE then with_type1 (p_last d) d else d)) by (destruct (is_type e STYPE); reflexivity).
  set (d1 := if is_type e STYPE then _ else _) in *. clearbody d1.
  eapply (good_end w f k n [] (m :: os) d1 t e _ _ f k [] os m); try eassumption; try reflexivity.
  - intros U V. rewrite U. apply (g_tight _ _ _ _ _ _ _ H1), V.
  - constructor.
  - rewrite <- app_assoc. reflexivity.
  - intros _. rewrite text_end, T, app_nil_r. reflexivity.
Qed.
Lemma good_finish_skip w f k n cs os d t e m : good w f k n (Some m :: cs) os d -> o_id t = n -> o_cat t = Kend ->
  o_text t = [] -> o_of t = Some m ->
  exists d', finish_skip w e d = Ok d' /\ good w f (k ++ [t]) (S n) cs os d'.
Proof.
  intros H X Y T O. unfold finish_skip.
  assert (H1 : good w f k n (Some m :: cs) os (set_slast w d)).
  { destruct H as [A B C D E F G H I J K L M N]. constructor; cbn; assumption. }
  eapply (good_end w (f ++ k) [] n (Some m :: cs) os (set_slast w d) t e _ _ f k cs os m); try eassumption; try reflexivity.
  - rewrite app_nil_r. reflexivity.
  - intros U V. cbn. rewrite (g_at _ _ _ _ _ _ _ H). reflexivity.
  - pose proof (g_issued _ _ _ _ _ _ _ H) as Z. inversion Z; assumption.
  - rewrite app_assoc. reflexivity.
Qed.
