(** C61: the whole parse, and the saved type positions. *)
From Verif Require Import Base Parser_Model Parser_Spec Parser_Proofs Parser_Proofs2 Parser_Proofs3 Parser_View Parser_Guess.
From Verif Require Import Places_Model Places_Spec Places_Proofs Places_Proofs2 Places_Proofs3 Places_Proofs4 Places_Proofs5.

Lemma sound_first w src : sound w (construct src) (first_places w).
Proof.
  constructor; [|intros _; vm_compute; repeat split; reflexivity|reflexivity].
  change (front (construct src)) with [OTok 0 (TE Eunit) Kstart [] None; OTok 1 (TE Eunit) Kempty [] None].
  change (skip (construct src)) with (@nil otok). change (serial (construct src)) with 2.
  change (comments (construct src)) with (@nil (option nat)). change (open_ids (construct src)) with [0].
  constructor; cbn; try reflexivity; try discriminate.
  - constructor.
  - intros a t b E K. destruct a as [|x [|y a]]; cbn in E.
    + injection E as <- <-. exists (Eunit, true, w 0). split; reflexivity.
    + injection E as <- <- <-. discriminate K.
    + injection E as _ _ E. destruct a; discriminate E.
  - intros a t b E K. destruct a as [|x [|y a]]; cbn in E.
    + injection E as <- <-. discriminate K.
    + injection E as <- <- <-. discriminate K.
    + injection E as _ _ E. destruct a; discriminate E.
  - repeat constructor.
  - repeat constructor.
  - constructor; [intros []|constructor].
  - intros m _ [].
  - constructor.
  - intros m [<-|[]]. left. left. reflexivity.
Qed.

Lemma places_play o w src c s : emits o (construct src) c s -> log s = [] -> quiet c ->
  exists d, play w c (first_places w) = Ok d /\ sound w s d.
Proof. intros E L Q. exact (sound_play w (source src) o _ _ _ E L Q (inv_construct src) _ (sound_first w src)). Qed.

Lemma places_all o w src c s : emits o (construct src) c s -> log s = [] -> quiet c ->
  exists d, play w c (first_places w) = Ok d /\
  (forall a t b, everything s = a ++ t :: b -> o_cat t = Kstart ->
     exists e f p, kept (p_started d) (o_id t) = Some (e, f, p) /\
       (is_type e STYPEPREV = false -> f = true -> p = w (length (text_before a))) /\
       (is_type e STYPEPREV = false -> f = false -> exists k, length (text_before a) <= k /\ p = w k)) /\
  (forall a t b, everything s = a ++ t :: b -> o_cat t = Kend ->
     exists n e b q, o_of t = Some n /\ kept (p_ended d) n = Some (e, b, q) /\
       (is_type e STYPEPREV = false -> b = true -> q = before (w (length (text_before a))))) /\
  (length (p_ends d) <= 1 -> forall t, In t (everything s) -> o_cat t = Kstart ->
     p_ends d = [Some (o_id t)] \/ exists x, kept (p_ended d) (o_id t) = Some x).
Proof.
  intros E L Q. destruct (places_play o w src c s E L Q) as [d [P [G T _]]]. exists d. split; [exact P|].
  pose proof (everything_split _ T) as X. destruct G as [_ _ _ _ _ _ ST EN _ _ _ _ _ AL]. rewrite <- X in ST, EN.
  split; [|split].
  - intros a t b Y K. destruct (ST a t b Y K) as [[[e f] p] [A B]]. exists e, f, p. split; [exact A|].
    unfold start_ok in B. destruct (is_type e STYPEPREV); [split; discriminate|]. destruct f.
    + split; [intros _ _; exact B|discriminate].
    + split; [discriminate|intros _ _; exact B].
  - intros a t b Y K. destruct (EN a t b Y K) as [n [[[e f] q] [A [B C]]]]. exists n, e, f, q. split; [exact A|]. split; [exact B|exact C].
  - intros LE t I K. apply in_split in I as [a [b Y]]. destruct (ST a t b Y K) as [x [A _]].
    assert (I : In (o_id t) (keys (p_started d))) by (apply kept_in; exists x; exact A).
    destruct (AL _ I) as [J|J]; [left|right; apply kept_in, J].
    destruct (p_ends d) as [|[n|] [|y r]]; cbn in LE; try lia; try contradiction; cbn in J.
    destruct J as [->|[]]. reflexivity.
Qed.

(** The position of a type that is repeated is that of the last type. *)
Definition types_ok (d : places) : Prop :=
  p_guess d = 0 /\ p_type0 d = last_type (p_started d) /\
  forall a n p r, p_started d = a ++ (n, (STYPEPREV, true, p)) :: r -> p = last_type r.

Lemma types_same d d' : p_guess d' = p_guess d -> p_type0 d' = p_type0 d -> p_started d' = p_started d -> types_ok d -> types_ok d'.
Proof. intros A B C [X [Y Z]]. unfold types_ok. rewrite A, B, C. auto. Qed.

Record kept_types (d d' : places) : Prop :=
  { kt_s : p_started d' = p_started d; kt_t : p_type0 d' = p_type0 d; kt_g : p_guess d' = p_guess d }.
Lemma kept_types_trans a b c : kept_types a b -> kept_types b c -> kept_types a c.
Proof. intros [A B C] [A' B' C']. constructor; congruence. Qed.
Lemma kept_finish_at e b q d d' : finish_at e b q d = Ok d' -> kept_types d d'.
Proof. unfold finish_at. destruct (p_ends d); [discriminate|]. intros E. injection E as <-. constructor; reflexivity. Qed.
Lemma kept_finish_skip w e d d' : finish_skip w e d = Ok d' -> kept_types d d'.
Proof.
  intros E. apply kept_finish_at in E. eapply kept_types_trans; [|exact E]. constructor; reflexivity.
Qed.
Lemma kept_text t d : kept_types d (next_at t (issue d)).
Proof. constructor; reflexivity. Qed.
Lemma kept_skip w t d d' : skip_token w t d = Ok d' -> p_guess d <> 0 -> kept_types d d'.
Proof.
  intros H G. unfold skip_token in H. cbv zeta in H.
  assert (B : forall e f p, kept_types d (begin_at e f p d)).
  { intros e f p. unfold begin_at. destruct (p_guess d) eqn:E; [contradiction|]. constructor; try reflexivity. cbn. rewrite E. reflexivity. }
  destruct (l_type t) as [z| | | |c|c| | | |z];
    try (injection H as <-; apply kept_text).
  - eapply kept_types_trans; [|eapply kept_finish_skip, H]. eapply kept_types_trans; [apply B|apply kept_text].
  - injection H as <-. eapply kept_types_trans; [apply B|apply kept_text].
  - assert (Y : forall d', finish_skip w (Ecomment c) (next_at (Some t) (issue d)) = Ok d' -> kept_types d d').
    { intros u E. eapply kept_types_trans; [apply (kept_text (Some t))|eapply kept_finish_skip, E]. }
    assert (Z : forall d', obind (finish_skip w (Ecomment c) d) (fun d => Ok (next_at (Some t) (issue d))) = Ok d' -> kept_types d d').
    { intros u E. destruct (finish_skip w (Ecomment c) d) as [v|] eqn:K; [|discriminate]. cbn in E. injection E as <-.
      eapply kept_types_trans; [eapply kept_finish_skip, K|apply kept_text]. }
    destruct c; try (destruct (ends_line (l_text t))); first [exact (Y _ H)|exact (Z _ H)].
Qed.
Lemma look_types w : forall c n m d d', look c n = Some m -> place w c d = Ok d' -> p_guess d <> 0 -> kept_types d d'.
Proof.
  fix IH 1. intros c.
  assert (PL : forall l n m d d', (forall c, In c l -> forall n m d d', look c n = Some m -> place w c d = Ok d' -> p_guess d <> 0 -> kept_types d d') ->
     looks l n = Some m -> play w l d = Ok d' -> p_guess d <> 0 -> kept_types d d').
  { clear. induction l as [|c r IH]; intros n m d d' A L P G.
    - cbn in P. injection P as <-. constructor; reflexivity.
    - cbn in L, P. change (all_calls (place w)) with (play w) in P. destruct (look c n) as [k|] eqn:K; [|discriminate].
      destruct (place w c d) as [d1|] eqn:D; [|discriminate]. cbn in P.
      assert (X : kept_types d d1) by (eapply (A c); [left; reflexivity|exact K|exact D|exact G]).
      eapply kept_types_trans; [exact X|]. eapply IH; [|exact L|exact P|rewrite (kt_g _ _ X); exact G].
      intros u U. apply A. right. exact U. }
  assert (MK : forall l, (forall c, In c l -> forall n m d d', look c n = Some m -> place w c d = Ok d' -> p_guess d <> 0 -> kept_types d d') -> True) by auto.
  destruct c as [e f|e|e| | |t b|t|e|l|l]; intros n m d d' L P G; try discriminate L.
  - cbn in P. injection P as <-. constructor; reflexivity.
  - cbn in P. injection P as <-. constructor; reflexivity.
  - cbn in P. injection P as <-. constructor; reflexivity.
  - eapply kept_skip; [exact P|exact G].
  - rewrite look_guess in L. cbn [place] in P. change (all_calls (place w)) with (play w) in P.
    destruct (play w l (guess_in d)) as [d1|] eqn:D; [|discriminate]. cbn in P. injection P as <-.
    assert (X : kept_types (guess_in d) d1).
    { eapply (PL l); [|exact L|exact D|discriminate]. clear - IH.
      induction l as [|c r IHl]; intros u U; [contradiction|]. destruct U as [<-|U]; [exact (IH c)|exact (IHl u U)]. }
    destruct X as [A B C]. constructor; cbn; [exact A|exact B|rewrite C; reflexivity].
  - rewrite look_region in L. cbn [place] in P. change (all_calls (place w)) with (play w) in P.
    destruct (play w l (loosen d)) as [d1|] eqn:D; [|discriminate]. cbn in P. injection P as <-.
    assert (X : kept_types (loosen d) d1).
    { eapply (PL l); [|exact L|exact D|exact G]. clear - IH.
      induction l as [|c r IHl]; intros u U; [contradiction|]. destruct U as [<-|U]; [exact (IH c)|exact (IHl u U)]. }
    destruct X as [A B C]. constructor; cbn; [exact A|exact B|exact C].
Qed.
Lemma play_look_types w : forall l n m d d', looks l n = Some m -> play w l d = Ok d' -> p_guess d <> 0 -> kept_types d d'.
Proof.
  induction l as [|c r IH]; intros n m d d' L P G.
  - cbn in P. injection P as <-. constructor; reflexivity.
  - cbn in L, P. change (all_calls (place w)) with (play w) in P. destruct (look c n) as [k|] eqn:K; [|discriminate].
    destruct (place w c d) as [d1|] eqn:D; [|discriminate]. cbn in P.
    pose proof (look_types w c n k d d1 K D G) as X.
    eapply kept_types_trans; [exact X|]. eapply IH; [exact L|exact P|rewrite (kt_g _ _ X); exact G].
Qed.
Lemma types_kept d d' : kept_types d d' -> types_ok d -> types_ok d'.
Proof. intros [A B C]. apply types_same; assumption. Qed.
Lemma types_begin e f p d : (e <> STYPE \/ f = false) -> is_type e STYPEPREV && f = false -> types_ok d -> types_ok (begin_at e f p d).
Proof.
  intros NT NP [G [T A]]. unfold begin_at, types_ok. rewrite G. cbn -[is_type]. split; [reflexivity|]. split.
  - rewrite T. destruct (is_type e STYPE) eqn:E; [|reflexivity]. destruct f; [|reflexivity]. destruct NT as [NT|NT]; [|discriminate].
    destruct e; try discriminate E. cbn in E. destruct NT. apply Nat.eqb_eq in E. rewrite E. reflexivity.
  - intros [|x a] n q r E; cbn in E; [|injection E as _ E; eapply A, E].
    injection E as _ -> -> _ _. discriminate NP.
Qed.
Lemma types_begin_flush w e d : types_ok d -> types_ok (begin_flush w e d).
Proof.
  intros H. unfold begin_flush. destruct (is_type e STYPE) eqn:E.
  - assert (PP : is_type e STYPEPREV = false).
    { destruct e; try discriminate E. cbn in *. apply Nat.eqb_eq in E. subst n. reflexivity. }
    rewrite PP. destruct H as [G [T A]]. unfold begin_at, types_ok. cbn -[is_type]. rewrite G. cbn -[is_type]. rewrite E. cbn.
    split; [reflexivity|]. split; [reflexivity|].
    intros [|x a] n q r X; cbn in X; [|injection X as _ X; eapply A, X]. injection X as _ -> _ _. discriminate PP.
  - destruct (is_type e STYPEPREV) eqn:PP.
    + destruct H as [G [T A]]. unfold begin_at, types_ok. cbn -[is_type]. rewrite G. cbn -[is_type]. rewrite E. cbn.
      split; [reflexivity|]. split; [exact T|].
      intros [|x a] n q r X; cbn in X; [|injection X as _ X; eapply A, X]. injection X as _ _ X Y. subst q r. exact T.
    + apply types_begin; [left; intros ->; discriminate E|rewrite PP; reflexivity|exact H].
Qed.
Lemma types_finish e d d' : finish e d = Ok d' -> types_ok d -> types_ok d'.
Proof.
  intros H. unfold finish in H. apply kept_finish_at in H. intros X. eapply types_kept; [exact H|].
  destruct (is_type e STYPE); [|exact X]. revert X. apply types_same; reflexivity.
Qed.
Lemma types_skip w t d d' : skip_token w t d = Ok d' -> types_ok d -> types_ok d'.
Proof.
  intros H X. unfold skip_token in H. cbv zeta in H.
  assert (TX : forall u, types_ok u -> types_ok (next_at (Some t) (issue u))) by (intros u; apply types_same; reflexivity).
  assert (FS : forall e u v, finish_skip w e u = Ok v -> types_ok u -> types_ok v) by (intros e u v E; apply types_kept; eapply kept_finish_skip, E).
  assert (B : forall c p, types_ok (begin_at (Ecomment c) true p d)).
  { intros c p. apply types_begin; [left; discriminate|reflexivity|exact X]. }
  destruct (l_type t) as [z| | | |c|c| | | |z]; try (injection H as <-; apply TX, X).
  - eapply FS; [exact H|]. apply TX, B.
  - injection H as <-. apply TX, B.
  - assert (Y : forall d', finish_skip w (Ecomment c) (next_at (Some t) (issue d)) = Ok d' -> types_ok d').
    { intros u E. eapply FS; [exact E|]. apply TX, X. }
    assert (Z : forall d', obind (finish_skip w (Ecomment c) d) (fun d => Ok (next_at (Some t) (issue d))) = Ok d' -> types_ok d').
    { intros u E. destruct (finish_skip w (Ecomment c) d) as [v|] eqn:K; [|discriminate]. cbn in E. injection E as <-.
      apply TX. eapply FS; [exact K|exact X]. }
    destruct c; try (destruct (ends_line (l_text t))); first [exact (Y _ H)|exact (Z _ H)].
Qed.
Lemma types_one w c d d' : (forall l, c <> Cguess l) -> (forall l, c <> Cregion l) -> place w c d = Ok d' -> types_ok d -> types_ok d'.
Proof.
  intros NG NR H X. assert (L : types_ok (loosen d)) by (revert X; apply types_same; reflexivity).
  destruct c as [e f|e|e| | |t b|t|e|l|l]; cbn [place] in H.
  - destruct f; injection H as <-; [apply types_begin_flush, L|].
    apply types_begin; [right; reflexivity|apply andb_false_r|exact X].
  - eapply types_finish; eassumption.
  - eapply types_finish; [exact H|]. apply types_begin; [right; reflexivity|apply andb_false_r|exact X].
  - injection H as <-. revert X; apply types_same; reflexivity.
  - injection H as <-. exact L.
  - injection H as <-. revert X; apply types_same; reflexivity.
  - eapply types_skip; eassumption.
  - eapply types_kept; [eapply kept_finish_skip, H|exact X].
  - destruct (NG l eq_refl).
  - destruct (NR l eq_refl).
Qed.
Lemma types_play w l : quiet l -> forall d d', play w l d = Ok d' -> types_ok d -> types_ok d'.
Proof.
  induction 1 as [|l r LK Q IH|l r Q1 IH1 Q2 IH2|c r NG NR Q IH]; intros d d' P X.
  - cbn in P. injection P as <-. exact X.
  - cbn in P. change (all_calls (place w)) with (play w) in P. destruct (play w l (guess_in d)) as [d1|] eqn:D; [|discriminate].
    cbn in P. eapply IH; [exact P|]. pose proof (play_look_types w l _ _ _ _ LK D ltac:(discriminate)) as [A B C].
    revert X. apply types_same; cbn; [rewrite C; reflexivity|exact B|exact A].
  - cbn in P. change (all_calls (place w)) with (play w) in P. destruct (play w l (loosen d)) as [d1|] eqn:D; [|discriminate].
    cbn in P. eapply IH2; [exact P|].
    assert (L : types_ok (loosen d)) by (revert X; apply types_same; reflexivity).
    specialize (IH1 _ _ D L). revert IH1. apply types_same; reflexivity.
  - cbn in P. change (all_calls (place w)) with (play w) in P. destruct (place w c d) as [d1|] eqn:D; [|discriminate].
    cbn in P. eapply IH; [exact P|]. eapply types_one; eassumption.
Qed.
Lemma repeated_type o w src c s : emits o (construct src) c s -> log s = [] -> quiet c ->
  forall d, play w c (first_places w) = Ok d ->
  forall a n p r, p_started d = a ++ (n, (STYPEPREV, true, p)) :: r -> p = last_type r.
Proof.
  intros E L Q d P. apply (types_play w c Q _ d P). split; [reflexivity|]. split; [reflexivity|].
  intros [|x a] n p r Y; cbn in Y; [discriminate Y|]. injection Y as _ Y. destruct a; discriminate Y.
Qed.

(** Only plain calls. *)
Definition plains (d : places) : Prop :=
  p_guess d = 0 /\ Forall (fun x => let '(_, (e, f, _)) := x in is_type e STYPEPREV = false /\ f = true) (p_started d).
Lemma plains_same d d' : p_guess d' = p_guess d -> p_started d' = p_started d -> plains d -> plains d'.
Proof. intros A B [X Y]. unfold plains. rewrite A, B. auto. Qed.
Lemma plains_kept d d' : kept_types d d' -> plains d -> plains d'.
Proof. intros [A B C]. apply plains_same; assumption. Qed.
Lemma plains_begin e p d : is_type e STYPEPREV = false -> plains d -> plains (begin_at e true p d).
Proof. intros N [G A]. unfold begin_at, plains. rewrite G. cbn -[is_type]. split; [reflexivity|]. constructor; [split; [exact N|reflexivity]|exact A]. Qed.
Lemma plains_begin_flush w e d : is_type e STYPEPREV = false -> plains d -> plains (begin_flush w e d).
Proof.
  intros N H. unfold begin_flush. apply plains_begin; [exact N|]. destruct (is_type e STYPE); [|exact H]. revert H. apply plains_same; reflexivity.
Qed.
Lemma plains_finish e d d' : finish e d = Ok d' -> plains d -> plains d'.
Proof.
  intros H. unfold finish in H. apply kept_finish_at in H. intros X. eapply plains_kept; [exact H|].
  destruct (is_type e STYPE); [|exact X]. revert X. apply plains_same; reflexivity.
Qed.
Lemma plains_skip w t d d' : skip_token w t d = Ok d' -> plains d -> plains d'.
Proof.
  intros H X. unfold skip_token in H. cbv zeta in H.
  assert (TX : forall u, plains u -> plains (next_at (Some t) (issue u))) by (intros u; apply plains_same; reflexivity).
  assert (FS : forall e u v, finish_skip w e u = Ok v -> plains u -> plains v) by (intros e u v E; apply plains_kept; eapply kept_finish_skip, E).
  assert (B : forall c p, plains (begin_at (Ecomment c) true p d)) by (intros c p; apply plains_begin; [reflexivity|exact X]).
  destruct (l_type t) as [z| | | |c|c| | | |z]; try (injection H as <-; apply TX, X).
  - eapply FS; [exact H|]. apply TX, B.
  - injection H as <-. apply TX, B.
  - assert (Y : forall d', finish_skip w (Ecomment c) (next_at (Some t) (issue d)) = Ok d' -> plains d').
    { intros u E. eapply FS; [exact E|]. apply TX, X. }
    assert (Z : forall d', obind (finish_skip w (Ecomment c) d) (fun d => Ok (next_at (Some t) (issue d))) = Ok d' -> plains d').
    { intros u E. destruct (finish_skip w (Ecomment c) d) as [v|] eqn:K; [|discriminate]. cbn in E. injection E as <-.
      apply TX. eapply FS; [exact K|exact X]. }
    destruct c; try (destruct (ends_line (l_text t))); first [exact (Y _ H)|exact (Z _ H)].
Qed.
Lemma plains_one w c d d' : (forall l, c <> Cguess l) -> (forall l, c <> Cregion l) -> plain c -> place w c d = Ok d' -> plains d -> plains d'.
Proof.
  intros NG NR PC H X. assert (L : plains (loosen d)) by (revert X; apply plains_same; reflexivity).
  destruct PC as [e N|e| | |t b|t|c|l|l F]; cbn [place] in H.
  - injection H as <-. apply plains_begin_flush; [exact N|exact L].
  - eapply plains_finish; eassumption.
  - injection H as <-. revert X; apply plains_same; reflexivity.
  - injection H as <-. exact L.
  - injection H as <-. revert X; apply plains_same; reflexivity.
  - eapply plains_skip; eassumption.
  - eapply plains_kept; [eapply kept_finish_skip, H|exact X].
  - destruct (NG l eq_refl).
  - destruct (NR l eq_refl).
Qed.
Lemma plains_play w l : quiet l -> forall d d', Forall plain l -> play w l d = Ok d' -> plains d -> plains d'.
Proof.
  induction 1 as [|l r LK Q IH|l r Q1 IH1 Q2 IH2|c r NG NR Q IH]; intros d d' F P X; try (inversion F as [|? ? F1 F2]; subst).
  - cbn in P. injection P as <-. exact X.
  - cbn in P. change (all_calls (place w)) with (play w) in P. destruct (play w l (guess_in d)) as [d1|] eqn:D; [|discriminate].
    cbn in P. eapply IH; [exact F2|exact P|]. pose proof (play_look_types w l _ _ _ _ LK D ltac:(discriminate)) as [A B C].
    revert X. apply plains_same; cbn; [rewrite C; reflexivity|exact A].
  - cbn in P. change (all_calls (place w)) with (play w) in P. destruct (play w l (loosen d)) as [d1|] eqn:D; [|discriminate].
    cbn in P. eapply IH2; [exact F2|exact P|].
    assert (L : plains (loosen d)) by (revert X; apply plains_same; reflexivity). inversion F1; subst.
    specialize (IH1 _ _ ltac:(eassumption) D L). revert IH1. apply plains_same; reflexivity.
  - cbn in P. change (all_calls (place w)) with (play w) in P. destruct (place w c d) as [d1|] eqn:D; [|discriminate].
    cbn in P. eapply IH; [exact F2|exact P|]. eapply plains_one; eassumption.
Qed.

Lemma kept_member {A} (l : list (nat * A)) n x : kept l n = Some x -> In (n, x) l.
Proof.
  induction l as [|[m y] r IH]; cbn; [discriminate|]. destruct (Nat.eqb_spec m n) as [->|N]; intros H.
  - injection H as ->. left. reflexivity.
  - right. apply IH, H.
Qed.
Lemma plain_starts o w src c s : emits o (construct src) c s -> log s = [] -> quiet c -> Forall plain c ->
  exists d, play w c (first_places w) = Ok d /\
  forall a t b, everything s = a ++ t :: b -> o_cat t = Kstart ->
  exists e, kept (p_started d) (o_id t) = Some (e, true, w (length (text_before a))).
Proof.
  intros E L Q F. destruct (places_all o w src c s E L Q) as [d [P [ST _]]]. exists d. split; [exact P|].
  intros a t b Y K. destruct (ST a t b Y K) as [e [f [p [A [B _]]]]].
  assert (PL : plains d).
  { apply (plains_play w c Q _ d F P). split; [reflexivity|]. constructor; [split; reflexivity|constructor]. }
  destruct PL as [_ PL]. rewrite Forall_forall in PL. specialize (PL _ (kept_member _ _ _ A)). cbn -[is_type STYPEPREV] in PL. destruct PL as [N ->].
  exists e. rewrite A, (B N eq_refl). reflexivity.
Qed.

(** What is printed. *)
Lemma printed w a b : in_order w ->
  addPosition (w a) (before (w b)) = if a <? b then Some (w a, before (w b)) else None.
Proof.
  intros O. unfold addPosition, before. destruct (w a) as [l1 c1] eqn:A, (w b) as [l2 c2] eqn:B. cbn [fst snd].
  destruct (Nat.ltb_spec a b) as [H|H].
  - specialize (O _ _ H). rewrite A, B in O. unfold earlier in O. cbn in O.
    destruct (Z.ltb_spec l2 l1); [lia|]. destruct (Z.eqb_spec l2 l1); [|reflexivity]. destruct (Z.ltb_spec (c2 - 1) c1); [lia|reflexivity].
  - assert (X : (l2 < l1 \/ l2 = l1 /\ c2 <= c1)%Z).
    { destruct (Nat.eq_dec a b) as [->|N].
      - rewrite A in B. injection B as -> ->. lia.
      - assert (M : b < a) by lia. specialize (O _ _ M). rewrite A, B in O. unfold earlier in O. cbn in O. lia. }
    destruct (Z.ltb_spec l2 l1); [reflexivity|]. destruct (Z.eqb_spec l2 l1); [|lia]. destruct (Z.ltb_spec (c2 - 1) c1); [reflexivity|lia].
Qed.
