(** C61: a parse and its bookkeeping. *)
From Verif Require Import Base Parser_Model Parser_Spec Parser_Proofs Parser_Proofs2 Parser_Proofs3 Parser_View Parser_View2 Parser_View3 Parser_Guess.
From Verif Require Import Places_Model Places_Spec Places_Proofs Places_Proofs2 Places_Proofs3 Places_Proofs4.

Lemma text_untyped a b : map untyped a = map untyped b -> text a = text b.
Proof.
  revert b. induction a as [|t a IH]; intros [|u b] H; try discriminate; [reflexivity|]. cbn in H. injection H as H1 H2 H3 H4 H5.
  unfold text in *. cbn. rewrite H3, (IH b H5). reflexivity.
Qed.
Lemma split_untyped : forall l' l a' t' b', map untyped l' = map untyped l -> l' = a' ++ t' :: b' ->
  exists a t b, l = a ++ t :: b /\ map untyped a = map untyped a' /\ untyped t = untyped t'.
Proof.
  intros l' l a'. revert l' l. induction a' as [|x a' IH]; intros l' l t' b' H E; subst l'; destruct l as [|y l]; try discriminate.
  - cbn [app map] in H. pose proof (f_equal (hd (untyped t')) H) as H1. cbn [hd] in H1. exists [], y, l. split; [reflexivity|]. split; [reflexivity|]. congruence.
  - cbn [app map] in H. pose proof (f_equal (hd (untyped x)) H) as H1. pose proof (f_equal (@tl _) H) as H2. cbn [hd tl] in H1, H2.
    destruct (IH _ _ _ _ H2 eq_refl) as [a [t [b [-> [A B]]]]]. exists (y :: a), t, b. split; [reflexivity|]. split; [cbn [map]; congruence|exact B].
Qed.
Lemma starts_alike w l l' r : map untyped l' = map untyped l -> starts_fine w l r -> starts_fine w l' r.
Proof.
  intros H F a' t' b' E C. destruct (split_untyped _ _ _ _ _ H E) as [a [t [b [-> [A B]]]]]. unfold untyped in B. injection B as B1 B2 B3 B4.
  destruct (F a t b eq_refl ltac:(congruence)) as [x [X Y]]. exists x. split; [congruence|].
  destruct x as [[e f] p]. unfold start_ok in *. rewrite <- (text_untyped _ _ A). exact Y.
Qed.
Lemma ends_alike w l l' r : map untyped l' = map untyped l -> ends_fine w l r -> ends_fine w l' r.
Proof.
  intros H F a' t' b' E C. destruct (split_untyped _ _ _ _ _ H E) as [a [t [b [-> [A B]]]]]. unfold untyped in B. injection B as B1 B2 B3 B4.
  destruct (F a t b eq_refl ltac:(congruence)) as [n [x [M [X Y]]]]. exists n, x. split; [congruence|]. split; [exact X|].
  destruct x as [[e f] p]. unfold end_ok in *. rewrite <- (text_untyped _ _ A). exact Y.
Qed.
Lemma ids_alike n l l' : map untyped l' = map untyped l -> Forall (fun t => o_id t < n) l -> Forall (fun t => o_id t < n) l'.
Proof.
  revert l. induction l' as [|t l' IH]; intros [|u l] H F; try discriminate; constructor; inversion F; subst; unfold untyped in H; cbn in H.
  - injection H as H _ _ _ _. lia.
  - injection H as _ _ _ _ H. eapply IH; eassumption.
Qed.
Lemma good_alike w f k f' k' n cs os d : map untyped (f' ++ k') = map untyped (f ++ k) ->
  (p_tight d = true -> map untyped f' = map untyped f) -> good w f k n cs os d -> good w f' k' n cs os d.
Proof.
  intros Q QT [A B C D E F G H I J K L M N]. constructor; try assumption.
  - rewrite (text_untyped _ _ Q). exact C.
  - intros W. rewrite (text_untyped _ _ (QT W)). apply F, W.
  - eapply starts_alike; eassumption.
  - eapply ends_alike; eassumption.
  - eapply ids_alike; eassumption.
Qed.

(** The state and its bookkeeping, outside look-aheads. *)
Record sound (w : nat -> point) (s : ps) (d : places) : Prop :=
  { sd_good : good w (front s) (skip s) (serial s) (comments s) (open_ids s) d;
    sd_tidy : tidy s;
    sd_guess : guessing s = 0 }.

(** Effects of pushes. *)
Lemma push_view ty k x o s : guessing s = 0 ->
  front (pushToken ty k x o s) = front s ++ [newtok s ty k x o] /\ skip (pushToken ty k x o s) = skip s /\
  serial (pushToken ty k x o s) = S (serial s) /\ comments (pushToken ty k x o s) = comments s /\
  open_ids (pushToken ty k x o s) = open_ids s /\ inskip (pushToken ty k x o s) = inskip s /\ modes (pushToken ty k x o s) = modes s.
Proof.
  intros G. unfold pushToken. rewrite G. cbn [Nat.ltb Nat.leb]. unfold front, skip, set_output, output, open_ids.
  destruct (inskip s) eqn:E; cbn; rewrite <- ?app_assoc; repeat split; reflexivity.
Qed.
Lemma flush_view s :
  front (flushSkip s) = front s ++ skip s /\ skip (flushSkip s) = [] /\ serial (flushSkip s) = serial s /\
  comments (flushSkip s) = comments s /\ open_ids (flushSkip s) = open_ids s /\ inskip (flushSkip s) = inskip s /\ modes (flushSkip s) = modes s.
Proof.
  unfold flushSkip, front, skip, set_skip, set_output, output, open_ids, skip.
  destruct (inskip s) eqn:E; cbn; rewrite ?E; cbn; rewrite ?E; rewrite <- ?app_assoc; repeat split; reflexivity.
Qed.
Lemma push_flush_view ty k x o s : guessing s = 0 ->
  front (pushTokenFlush ty k x o s) = front s ++ skip s ++ [newtok s ty k x o] /\ skip (pushTokenFlush ty k x o s) = [] /\
  serial (pushTokenFlush ty k x o s) = S (serial s) /\ comments (pushTokenFlush ty k x o s) = comments s /\
  open_ids (pushTokenFlush ty k x o s) = open_ids s.
Proof.
  intros G. unfold pushTokenFlush. rewrite G. cbn [Nat.ltb Nat.leb].
  destruct (flush_view s) as [A [B [C [D [E [F H]]]]]].
  assert (G2 : guessing (flushSkip s) = 0) by (rewrite flush_guessing; exact G).
  destruct (push_view ty k x o (flushSkip s) G2) as [A' [B' [C' [D' [E' _]]]]].
  rewrite A', B', C', D', E', A, B, C, D, E. unfold newtok. rewrite C, <- app_assoc. repeat split; reflexivity.
Qed.
Lemma push_skip_view ty k x o s : guessing s = 0 ->
  front (pushSkipToken ty k x o s) = front s /\ skip (pushSkipToken ty k x o s) = skip s ++ [newtok s ty k x o] /\
  serial (pushSkipToken ty k x o s) = S (serial s) /\ comments (pushSkipToken ty k x o s) = comments s /\
  open_ids (pushSkipToken ty k x o s) = open_ids s /\ guessing (pushSkipToken ty k x o s) = 0.
Proof.
  intros G. unfold pushSkipToken. rewrite G. cbn [Nat.ltb Nat.leb]. unfold front, skip, set_skip, skip, open_ids.
  destruct (inskip s) eqn:E; cbn; repeat split; try reflexivity; exact G.
Qed.

Lemma no_comments l : Forall (fun o : option nat => o <> None) l -> existsb issued l = false -> l = [].
Proof. intros F E. destruct l as [|[x|] l]; [reflexivity|discriminate E|]. inversion F. contradiction. Qed.

Lemma log_note_if b f s : log (note_if b f s) = [] -> b = false /\ log s = [].
Proof. destruct b; cbn; intros H; [discriminate|split; [reflexivity|exact H]]. Qed.

Lemma note_view b f s : front (note_if b f s) = front s /\ skip (note_if b f s) = skip s /\ serial (note_if b f s) = serial s /\
  comments (note_if b f s) = comments s /\ open_ids (note_if b f s) = open_ids s.
Proof. destruct b; repeat split. Qed.

Lemma sound_by w s' d f k n cs os : good w f k n cs os d -> tidy s' -> guessing s' = 0 ->
  front s' = f -> skip s' = k -> serial s' = n -> comments s' = cs -> open_ids s' = os -> sound w s' d.
Proof. intros G T Z <- <- <- <- <-. constructor; assumption. Qed.

Lemma play_one w c d d' : place w c d = Ok d' -> play w [c] d = Ok d'.
Proof. intros H. unfold play, all_calls. rewrite H. reflexivity. Qed.

Lemma tidy_emits src o s l s' : emits o s l s' -> Inv src s -> tidy s'.
Proof. intros E I. apply (inv_tidy src). apply (keeps_emits src _ _ _ _ E I). Qed.

Lemma newtok_fields s ty k x o : o_id (newtok s ty k x o) = serial s /\ o_cat (newtok s ty k x o) = k /\
  o_text (newtok s ty k x o) = x /\ o_of (newtok s ty k x o) = o.
Proof. repeat split. Qed.

Lemma drop1_view s : front (drop1 s) = front s /\ skip (drop1 s) = skip s /\ serial (drop1 s) = serial s /\
  comments (drop1 s) = comments s /\ open_ids (drop1 s) = open_ids s /\ guessing (drop1 s) = guessing s.
Proof. repeat split. Qed.

(** The states between the parts of a skip token: no claim on tidiness. *)
Record fits (w : nat -> point) (s : ps) (d : places) : Prop :=
  { ft_good : good w (front s) (skip s) (serial s) (comments s) (open_ids s) d; ft_guess : guessing s = 0 }.

Lemma fits_text w s d t ty k : fits w s d -> k <> Kstart -> k <> Kend ->
  fits w (drop1 (pushSkipToken ty k (l_text t) None s)) (next_at (Some t) (issue d)).
Proof.
  intros [H G] K1 K2. destruct (push_skip_view ty k (l_text t) None s G) as [A [B [C [D [E F]]]]].
  destruct (drop1_view (pushSkipToken ty k (l_text t) None s)) as [A' [B' [C' [D' [E' F']]]]].
  constructor; [|congruence]. rewrite A', B', C', D', E', A, B, C, D, E. apply good_skip_text; try assumption; reflexivity.
Qed.
Lemma fits_begin w s d c : fits w s d ->
  good w (front s) (skip s ++ [newtok s (TE (Ecomment c)) Kstart [] None]) (S (serial s)) (Some (serial s) :: comments s) (open_ids s)
    (begin_at (Ecomment c) true (w (p_at d)) d).
Proof. intros [H G]. apply good_begin_skip; try assumption; reflexivity. Qed.
Lemma fits_finish w s d e n cs ty : good w (front s) (skip s) (serial s) (Some n :: cs) (open_ids s) d -> guessing s = 0 -> comments s = cs ->
  exists d', finish_skip w e d = Ok d' /\ fits w (pushSkipToken ty Kend [] (Some n) s) d'.
Proof.
  intros H G C. destruct (push_skip_view ty Kend [] (Some n) s G) as [A [B [C' [D [E F]]]]].
  destruct (good_finish_skip w (front s) (skip s) (serial s) cs (open_ids s) d (newtok s ty Kend [] (Some n)) e n) as [d' [P Q]]; try assumption; try reflexivity.
  exists d'. split; [exact P|]. constructor; [|exact F]. rewrite A, B, C', D, E, C. exact Q.
Qed.
(** As [fits], while one more comment is open than the state says. *)
Lemma good_text_in w s d t ty cs : good w (front s) (skip s) (serial s) cs (open_ids s) d -> guessing s = 0 ->
  let s' := drop1 (pushSkipToken ty Ktext (l_text t) None s) in
  good w (front s') (skip s') (serial s') cs (open_ids s') (next_at (Some t) (issue d)) /\ guessing s' = 0 /\ comments s' = comments s.
Proof.
  intros H G s'. subst s'. destruct (push_skip_view ty Ktext (l_text t) None s G) as [A [B [C [D [E F]]]]].
  destruct (drop1_view (pushSkipToken ty Ktext (l_text t) None s)) as [A' [B' [C' [D' [E' F']]]]].
  rewrite A', B', C', D', E', F', A, B, C, D, E, F. split; [|split; reflexivity].
  apply good_skip_text; try assumption; try reflexivity; discriminate.
Qed.

Lemma skip_sound w t r s s' d : input s = t :: r -> skip_one t s = Ret s' -> log s' = [] -> fits w s d ->
  exists d', place w (Cskip t) d = Ok d' /\ fits w s' d'.
Proof.
  intros I H L F. destruct F as [GD GG]. unfold skip_one in H. cbn [place]. unfold skip_token.
  assert (TXT : forall ty k, k <> Kstart -> k <> Kend ->
    fits w (drop1 (pushSkipToken ty k (l_text t) None s)) (next_at (Some t) (issue d))).
  { intros ty k K1 K2. apply fits_text; [constructor; assumption|exact K1|exact K2]. }
  destruct (l_type t) as [z| | | |c|c| | | |z] eqn:T; cbv zeta in H;
    try (injection H as <-; eexists; split; [reflexivity|apply TXT; discriminate]).
  - (* whole *)
    injection H as <-.
    assert (IS : issuing s = Some (serial s)) by (unfold issuing; rewrite GG; reflexivity). rewrite IS.
    pose proof (fits_begin w s d Cblock ltac:(constructor; assumption)) as B.
    destruct (push_skip_view (TE (Ecomment Cblock)) Kstart [] None s GG) as [A1 [A2 [A3 [A4 [A5 A6]]]]].
    set (s1 := pushSkipToken (TE (Ecomment Cblock)) Kstart [] None s) in *. rewrite <- A1, <- A2, <- A3, <- A5 in B.
    destruct (good_text_in w s1 _ t (TL Lwhole) _ B A6) as [B2 [G2 C2]].
    set (s2 := drop1 (pushSkipToken (TL Lwhole) Ktext (l_text t) None s1)) in *.
    eapply (fits_finish w s2 _ (Ecomment Cblock) (serial s) (comments s) (TE (Ecomment Cblock))); [exact B2|exact G2|congruence].
  - (* open *)
    injection H as <-. eexists. split; [reflexivity|].
    assert (IS : issuing s = Some (serial s)) by (unfold issuing; rewrite GG; reflexivity). rewrite IS.
    pose proof (fits_begin w s d c ltac:(constructor; assumption)) as B.
    destruct (push_skip_view (TE (Ecomment c)) Kstart [] None s GG) as [A1 [A2 [A3 [A4 [A5 A6]]]]].
    set (s1 := pushSkipToken (TE (Ecomment c)) Kstart [] None s) in *. rewrite <- A1, <- A2, <- A3, <- A5 in B.
    destruct (good_text_in w s1 _ t (TL (Lopen c)) _ B A6) as [B2 [G2 C2]].
    set (s2 := drop1 (pushSkipToken (TL (Lopen c)) Ktext (l_text t) None s1)) in *.
    assert (C3 : comments s2 = comments s) by congruence. constructor; [|exact G2].
    change (good w (front s2) (skip s2) (serial s2) (Some (serial s) :: comments s2) (open_ids s2) (next_at (Some t) (issue (begin_at (Ecomment c) true (w (p_at d)) d)))).
    rewrite C3. exact B2.
  - (* close *)
    destruct (pop_comment s) as [[n s0]|] eqn:P; [|discriminate].
    unfold pop_comment in P. destruct (comments s) as [|x cs] eqn:CS; [discriminate|].
    rewrite GG in P. cbn [Nat.ltb Nat.leb Nat.eqb andb] in P.
    pose proof (g_issued _ _ _ _ _ _ _ GD) as GI. inversion GI as [|? ? X1 X2]; subst. destruct x as [m|]; [|contradiction].
    cbn [note_if] in P. injection P as P1 P2. subst n s0. rewrite ?GG in H. cbn [Nat.ltb Nat.leb Nat.eqb andb note_if] in H.
    assert (G0 : good w (front (set_comments cs s)) (skip (set_comments cs s)) (serial (set_comments cs s)) (Some m :: cs) (open_ids (set_comments cs s)) d) by exact GD.
    assert (GG0 : guessing (set_comments cs s) = 0) by exact GG.
    assert (CS0 : comments (set_comments cs s) = cs) by reflexivity.
    set (s0 := set_comments cs s) in *. clearbody s0.
    assert (Y : exists d', finish_skip w (Ecomment c) (next_at (Some t) (issue d)) = Ok d' /\
       fits w (pushSkipToken (TE (Ecomment c)) Kend [] (Some m) (drop1 (pushSkipToken (TL (Lclose c)) Ktext (l_text t) None s0))) d').
    { destruct (good_text_in w s0 d t (TL (Lclose c)) _ G0 GG0) as [B2 [G2 C2]].
      eapply fits_finish; [exact B2|exact G2|congruence]. }
    assert (Z : exists d', obind (finish_skip w (Ecomment c) d) (fun d => Ok (next_at (Some t) (issue d))) = Ok d' /\
       fits w (drop1 (pushSkipToken (TL (Lclose c)) Ktext (l_text t) None (pushSkipToken (TE (Ecomment c)) Kend [] (Some m) s0))) d').
    { destruct (fits_finish w s0 d (Ecomment c) m cs (TE (Ecomment c)) G0 GG0 CS0) as [d1 [P1 F1]].
      rewrite P1. eexists. split; [reflexivity|]. apply fits_text; [exact F1|discriminate|discriminate]. }
    destruct c; try (destruct (ends_line (l_text t))); injection H as <-; first [exact Y|exact Z].
Qed.

Lemma quiet_app l1 l2 : quiet (l1 ++ l2) -> quiet l1 /\ quiet l2.
Proof.
  induction l1 as [|c r IH]; cbn; intros H; [split; [constructor|exact H]|].
  inversion H; subst.
  - destruct (IH H3) as [A B]. split; [apply quiet_guess; assumption|exact B].
  - destruct (IH H3) as [A B]. split; [apply quiet_region; assumption|exact B].
  - destruct (IH H4) as [A B]. split; [apply quiet_other; assumption|exact B].
Qed.
Lemma quiet_look l r : quiet (Cguess l :: r) -> looks l 0 = Some 0.
Proof. intros H. inversion H; subst; [assumption|]. destruct (H2 l eq_refl). Qed.
Lemma quiet_inside l r : quiet (Cregion l :: r) -> quiet l.
Proof. intros H. inversion H; subst; [assumption|]. destruct (H3 l eq_refl). Qed.

Lemma sound_play w src o s l s' : emits o s l s' -> log s' = [] -> quiet l -> Inv src s ->
  forall d, sound w s d -> exists d', play w l d = Ok d' /\ sound w s' d'.
Proof.
  induction 1 as [s|s1 l1 s2 l2 s3 R1 IH1 R2 IH2|e s s' H|e s s' H|t r k e q s M O|e s|s|s s' H|s H|t r s s' I0 K H|s
                 |l s s' R IH|g l s s' G R IH]; intros L Q IV d SD.
  - exists d. split; [reflexivity|exact SD].
  - destruct (quiet_app _ _ Q) as [Q1 Q2]. pose proof (along_emits _ _ _ _ R2) as [_ L2].
    destruct (IH1 (incl_none _ _ L2 L) Q1 IV d SD) as [d1 [P1 S1]].
    destruct (IH2 L Q2 (proj1 (keeps_emits src _ _ _ _ R1 IV)) d1 S1) as [d2 [P2 S2]].
    exists d2. split; [rewrite play_app, P1; exact P2|exact S2].
  - pose proof (tidy_emits src _ _ _ _ (m_start o e s s' H) IV) as T'. destruct SD as [GD T GG].
    unfold startElement, on_top in H. destruct (modes s) as [|t r] eqn:M; [discriminate|]. cbn [bind] in H. injection H as <-.
    unfold issuing in *. rewrite GG in *. cbn [Nat.ltb Nat.leb] in *.
    set (m' := with_opened ((Some (serial s), e) :: opened t) t :: r) in *.
    destruct (log_note_if _ _ _ L) as [IC _]. unfold in_comment in IC.
    change (guessing (flushSkip (set_modes m' s))) with (guessing (flushSkip (set_modes m' s))) in IC.
    rewrite flush_guessing in IC. cbn [guessing set_modes] in IC. rewrite GG in IC. cbn [Nat.eqb andb] in IC.
    apply orb_false_elim in IC as [IC _].
    destruct (flush_view (set_modes m' s)) as [_ [_ [_ [FC _]]]]. rewrite FC in IC. cbn [comments set_modes] in IC.
    pose proof (no_comments _ (g_issued _ _ _ _ _ _ _ GD) IC) as C0. rewrite C0 in GD.
    destruct (push_flush_view (TE e) Kstart [] None (set_modes m' s) GG) as [A [B [C [D E]]]].
    set (b := in_comment (flushSkip (set_modes m' s))) in *.
    destruct (note_view b Fcomment (pushTokenFlush (TE e) Kstart [] None (set_modes m' s))) as [A' [B' [C' [D' E']]]].
    assert (OI : open_ids (set_modes m' s) = serial s :: open_ids s).
    { change (ids_of m' = serial s :: ids_of (modes s)). unfold m'. rewrite M, !ids_of_cons. reflexivity. }
    eexists. split; [apply play_one; reflexivity|].
    eapply sound_by; [eapply (good_begin_flush w (front s) (skip s) (serial s) (open_ids s) d (newtok (set_modes m' s) (TE e) Kstart [] None) e GD); reflexivity
      |exact T'| |rewrite A', A; reflexivity|rewrite B', B; reflexivity|rewrite C', C; reflexivity|rewrite D', D; exact C0|rewrite E', E; exact OI].
    destruct (calm_note_if b Fcomment (pushTokenFlush (TE e) Kstart [] None (set_modes m' s))) as [-> _ _].
    destruct (calm_pushTokenFlush (TE e) Kstart [] None (set_modes m' s)) as [-> _ _]. exact GG.
  - pose proof (tidy_emits src _ _ _ _ (m_start_ns o e s s' H) IV) as T'. destruct SD as [GD T GG].
    unfold startNoSkipElement, on_top in H. destruct (modes s) as [|t r] eqn:M; [discriminate|]. cbn [bind] in H. injection H as <-.
    unfold issuing in *. rewrite GG in *. cbn [Nat.ltb Nat.leb] in *.
    set (m' := with_opened ((Some (serial s), e) :: opened t) t :: r) in *.
    destruct (log_note_if _ _ _ L) as [IC _]. unfold in_comment in IC.
    cbn [guessing set_modes comments] in IC. rewrite GG in IC. cbn [Nat.eqb andb] in IC. apply orb_false_elim in IC as [IC _].
    pose proof (no_comments _ (g_issued _ _ _ _ _ _ _ GD) IC) as C0. rewrite C0 in GD.
    destruct (push_view (TE e) Kstart [] None (set_modes m' s) GG) as [A [B [C [D [E _]]]]].
    set (b := in_comment (set_modes m' s)) in *.
    destruct (note_view b Fcomment (pushToken (TE e) Kstart [] None (set_modes m' s))) as [A' [B' [C' [D' E']]]].
    assert (OI : open_ids (set_modes m' s) = serial s :: open_ids s).
    { change (ids_of m' = serial s :: ids_of (modes s)). unfold m'. rewrite M, !ids_of_cons. reflexivity. }
    eexists. split; [apply play_one; reflexivity|].
    eapply sound_by; [eapply (good_begin_noskip w (front s) (skip s) (serial s) (open_ids s) d (newtok (set_modes m' s) (TE e) Kstart [] None) e GD); reflexivity
      |exact T'| |rewrite A', A; reflexivity|rewrite B', B; reflexivity|rewrite C', C; reflexivity|rewrite D', D; exact C0|rewrite E', E; exact OI].
    destruct (calm_note_if b Fcomment (pushToken (TE e) Kstart [] None (set_modes m' s))) as [-> _ _].
    destruct (calm_pushToken (TE e) Kstart [] None (set_modes m' s)) as [-> _ _]. exact GG.
  - pose proof (tidy_emits src _ _ _ _ (m_end o t r k e q s M O) IV) as T'. destruct SD as [GD T GG].
    assert (GE : guessing (endElement s) = 0) by (destruct (calm_end s) as [-> _ _]; exact GG).
    unfold endElement in L, T', GE |- *. destruct (log_note_if _ _ _ L) as [IC L1]. unfold in_comment in IC. rewrite GG in IC. cbn [Nat.eqb andb] in IC.
    apply orb_false_elim in IC as [IC _]. pose proof (no_comments _ (g_issued _ _ _ _ _ _ _ GD) IC) as C0. rewrite C0 in GD.
    set (b := in_comment s) in *.
    destruct (note_view b Fcomment (end_element s)) as [A' [B' [C' [D' E']]]]. 
    unfold end_element in *. rewrite M, O in *. cbv zeta in *.
    assert (OS : open_ids s = somes [k] ++ ids_of (with_opened q t :: r)).
    { change (ids_of (modes s) = somes [k] ++ ids_of (with_opened q t :: r)). rewrite M, !ids_of_cons, O. cbn [map fst opened with_opened].
      change (k :: map fst q) with ([k] ++ map fst q). rewrite somes_app, <- app_assoc. reflexivity. }
    destruct (N.eqb (N.land (flags t) MODE_ISSUE_EMPTY_AT_POP) 0) eqn:EM.
    + assert (IE : issues_empty t = false) by (unfold issues_empty; rewrite EM; reflexivity). rewrite IE.
      rewrite GG in *. cbn [Nat.eqb Nat.ltb Nat.leb andb note_if] in *.
      destruct k as [m|].
      2:{ exfalso. assert (X : In Funopened []); [|contradiction]. rewrite <- L1. cbn [log set_modes].
          eapply (calm_log _ _ (calm_pushToken _ _ _ _ _)). cbn [note_if]. cbn [guessing note log]. rewrite ?GG. cbn. left. reflexivity. }
      cbn [note_if] in *. rewrite ?GG in L1, T', GE, A', B', C', D', E' |- *. cbn [andb note_if] in *. change (somes [Some m]) with [m] in OS. cbn [app] in OS. rewrite OS in GD.
      destruct (push_view (TE e) Kend [] (Some m) s GG) as [A [B [C [D [E _]]]]].
      destruct (good_finish w (front s) (skip s) (serial s) _ d (newtok s (TE e) Kend [] (Some m)) e m GD) as [d' [P1 G1]]; try reflexivity.
      exists d'. split; [apply play_one; exact P1|].
      eapply sound_by; [exact G1|exact T'|exact GE|rewrite A'; exact A|rewrite B'; exact B|rewrite C'; exact C
        |rewrite D'; change (comments (pushToken (TE e) Kend [] (Some m) s) = []); rewrite D; exact C0|rewrite E'; reflexivity].
    + assert (IE : issues_empty t = true) by (unfold issues_empty; rewrite EM; reflexivity). rewrite IE.
      destruct k as [m|].
      { exfalso. assert (X : In Funclosed []); [|contradiction]. rewrite <- L1. cbn [log set_modes].
        eapply (calm_log _ _ (calm_pushToken _ _ _ _ _)). eapply (calm_log _ _ (calm_pushToken _ _ _ _ _)).
        cbn [note_if]. cbn [guessing note log]. rewrite ?GG. cbn. left. reflexivity. }
      cbn [note_if] in *. rewrite ?GG in L1, T', GE, A', B', C', D', E' |- *. cbn [andb note_if] in *. change (somes [@None nat]) with (@nil nat) in OS. cbn [app] in OS.
      assert (IS : issuing s = Some (serial s)) by (unfold issuing; rewrite GG; reflexivity). rewrite IS in *.
      destruct (push_view (TE e) Kstart [] None s GG) as [A [B [C [D [E [_ _]]]]]].
      set (s1 := pushToken (TE e) Kstart [] None s) in *.
      assert (G1 : guessing s1 = 0) by (unfold s1; destruct (calm_pushToken (TE e) Kstart [] None s) as [-> _ _]; exact GG).
      destruct (push_view (TE e) Kend [] (Some (serial s)) s1 G1) as [A2 [B2 [C2 [D2 [E2 _]]]]].
      pose proof (good_begin_noskip w (front s) (skip s) (serial s) (open_ids s) d (newtok s (TE e) Kstart [] None) e GD eq_refl eq_refl eq_refl) as GB.
      rewrite <- A, <- B, <- C in GB.
      destruct (good_finish w (front s1) (skip s1) (serial s1) (open_ids s) _ (newtok s1 (TE e) Kend [] (Some (serial s))) e (serial s) GB) as [d' [P1 G2]]; try reflexivity.
      exists d'. split; [apply play_one; exact P1|].
      eapply sound_by; [exact G2|exact T'|exact GE|rewrite A'; exact A2|rewrite B'; exact B2|rewrite C'; exact C2
        |rewrite D'; change (comments (pushToken (TE e) Kend [] (Some (serial s)) s1) = []); rewrite D2, D; exact C0|rewrite E'; symmetry; exact OS].
  - pose proof (tidy_emits src _ _ _ _ (m_empty o e s) IV) as T'. destruct SD as [GD T GG].
    destruct (push_flush_view (TE e) Kempty [] None s GG) as [A [B [C [D E]]]].
    eexists. split; [apply play_one; reflexivity|].
    eapply sound_by; [eapply (good_empty w _ _ _ _ _ d (newtok s (TE e) Kempty [] None) GD); try reflexivity; discriminate
      |exact T'| |exact A|exact B|exact C|exact D|exact E].
    unfold emptyElement. destruct (calm_pushTokenFlush (TE e) Kempty [] None s) as [-> _ _]. exact GG.
  - pose proof (tidy_emits src _ _ _ _ (m_flush o s) IV) as T'. destruct SD as [GD T GG].
    destruct (flush_view s) as [A [B [C [D [E _]]]]].
    eexists. split; [apply play_one; reflexivity|].
    eapply sound_by; [eapply good_flush, GD|exact T'|rewrite flush_guessing; exact GG|exact A|exact B|exact C|exact D|exact E].
  - pose proof (tidy_emits src _ _ _ _ (m_silent o s s' H) IV) as T'. destruct SD as [GD T GG].
    pose proof (silent_still _ _ H) as [A B C D E]. exists d. split; [reflexivity|]. constructor; [|exact T'|rewrite (calm_g _ _ (calm_silent _ _ H)); exact GG].
    rewrite C, D, E. eapply good_alike; [| |exact GD]; [rewrite !map_app, A, B; reflexivity|intros _; exact A].
  - pose proof (tidy_emits src _ _ _ _ (m_take o s H) IV) as T'. destruct SD as [GD T GG].
    assert (GE : guessing (take s) = 0) by (destruct (calm_take s) as [-> _ _]; exact GG).
    unfold take, head_token, at_skip in *. destruct (input s) as [|t r] eqn:I.
    + cbn [existsb] in *. match type of L with log (pushTokenFlush _ _ _ _ (note_if ?b ?f ?u)) = _ => set (bb := b) in * end.
      assert (GN : guessing (note_if bb Feof s) = 0) by (destruct bb; exact GG).
      destruct (push_flush_view TEof Ktext [] None (note_if bb Feof s) GN) as [A [B [C [D E]]]].
      destruct (note_view bb Feof s) as [A' [B' [C' [D' E']]]].
      eexists. split; [apply play_one; reflexivity|].
      eapply sound_by; [eapply (good_consume w _ _ _ _ _ d (newtok (note_if bb Feof s) TEof Ktext [] None) None GD);
         [exact C'|discriminate|discriminate|reflexivity]|exact T'|exact GE
        |rewrite A, A', B'; reflexivity|exact B|rewrite C, C'; reflexivity|rewrite D; exact D'|rewrite E; exact E'].
    + destruct (is_skip_tok (inskip s) (l_type t)) eqn:K.
      * destruct (push_skip_view (TL (l_type t)) Ktext (l_text t) None s GG) as [A [B [C [D [E F]]]]].
        eexists. split; [apply play_one; reflexivity|].
        eapply sound_by; [eapply (good_consume_skip w _ _ _ _ _ d (newtok s (TL (l_type t)) Ktext (l_text t) None) t GD); try reflexivity; discriminate
          |exact T'|exact GE|exact A|exact B|exact C|exact D|exact E].
      * destruct (push_flush_view (TL (l_type t)) Ktext (l_text t) None s GG) as [A [B [C [D E]]]].
        eexists. split; [apply play_one; reflexivity|].
        eapply sound_by; [eapply (good_consume w _ _ _ _ _ d (newtok s (TL (l_type t)) Ktext (l_text t) None) (Some t) GD); try reflexivity; discriminate
          |exact T'|exact GE|exact A|exact B|exact C|exact D|exact E].
  - pose proof (tidy_emits src _ _ _ _ (m_skip o t r s s' I0 K H) IV) as T'. destruct SD as [GD T GG].
    destruct (skip_sound w t r s s' d I0 H L ltac:(constructor; assumption)) as [d' [P [F1 F2]]].
    exists d'. split; [apply play_one, P|]. constructor; assumption.
  - pose proof (tidy_emits src _ _ _ _ (m_complete o s) IV) as T'. destruct SD as [GD T GG].
    unfold completeSkip, pop_comment in *. destruct (comments s) as [|x cs] eqn:CS.
    + exists d. split; [reflexivity|]. constructor; [rewrite CS; exact GD|exact T|exact GG].
    + pose proof (g_issued _ _ _ _ _ _ _ GD) as GI. inversion GI as [|? ? X1 X2]; subst. destruct x as [m|]; [|contradiction].
      rewrite GG in *. cbn [Nat.eqb Nat.ltb Nat.leb andb note_if] in *.
      destruct (fits_finish w (set_comments cs s) d (Ecomment Cblock) m cs (TE (Ecomment Cblock)) GD GG eq_refl) as [d' [P [F1 F2]]].
      exists d'. split; [apply play_one; exact P|]. rewrite ?GG in T' |- *. cbn [andb note_if] in *. constructor; assumption.
  - pose proof (tidy_emits src _ _ _ _ (m_guess o l s s' R) IV) as T'. destruct SD as [GD T GG].
    pose proof (quiet_look _ _ Q) as LK.
    destruct (guess_play w o (mark s) l s' R ltac:(cbn; discriminate) T L 0 0 (comments s) (guess_in d) (map Some (open_ids s)) LK eq_refl
      ltac:(cbn; discriminate) (g_ends _ _ _ _ _ _ _ GD)) as [[H1 H2 H3 H4] [d1 [P1 [C1 [E1 [V1 V2 V3 V4]]]]]].
    cbn [repeat app] in C1. exists (guess_out d d1). split.
    { apply play_one. cbn [place]. change (all_calls (place w)) with (play w). rewrite P1. reflexivity. }
    constructor; [|exact T'|rewrite (al_g _ _ (along_emits _ _ _ _ (m_guess o l s s' R))); exact GG].
    change (comments (rewind s s')) with (comments s'). change (open_ids (rewind s s')) with (open_ids s').
    change (serial (rewind s s')) with (serial s').
    change (open_ids s' = open_ids s) in H1. change (serial s' = serial s) in H2. rewrite C1, H1, H2.
    change (map untyped (everything s') = map untyped (everything s)) in H4.
    change (everything s') with (everything (rewind s s')) in H4. rewrite (everything_split _ T'), (everything_split _ T) in H4.
    pose proof (good_alike w (front s) (skip s) (front (rewind s s')) (skip (rewind s s')) _ _ _ (loosen d) H4 ltac:(cbn; discriminate) (good_loosen _ _ _ _ _ _ _ GD)) as [A B C D E F G H I J K LL M N].
    cbn in A, B, C, D, E, F, G, H, I, J, K, LL, M, N, V1, V2, V3, V4. cbn in E1.
    assert (EE : p_ends d1 = p_ends d) by (rewrite E1, C1, D; reflexivity).
    constructor; cbn; rewrite ?EE, ?V1, ?V2, ?V3; try assumption; [rewrite V4; exact B|discriminate].
  - pose proof (tidy_emits src _ _ _ _ (m_region o g l s s' G R) IV) as T'. destruct SD as [GD T GG].
    assert (NS : inskip s = false) by (unfold at_region in G; destruct (inskip s); [discriminate G|reflexivity]).
    assert (IE : Inv src (enter s)).
    { destruct IV as [TT [x [X1 X2]] XE]. constructor; [discriminate|exists x; split; assumption|exact XE]. }
    assert (SE : sound w (enter s) (loosen d)).
    { constructor; [|discriminate|exact GG].
      change (serial (enter s)) with (serial s). change (comments (enter s)) with (comments s). change (open_ids (enter s)) with (open_ids s).
      eapply good_move; [|exact GD]. rewrite <- (everything_split _ T). rewrite <- (everything_split (enter s)) by discriminate. reflexivity. }
    destruct (IH (incl_none _ _ (log_leave s s') L) (quiet_inside _ _ Q) IE (loosen d) SE) as [d1 [P1 [G1 T1 GG1]]].
    destruct (leave_fields s s') as [F1 [F2 [F3 [F4 [F5 [F6 F7]]]]]].
    exists (loosen d1). split.
    { apply play_one. cbn [place]. change (all_calls (place w)) with (play w). rewrite P1. reflexivity. }
    constructor; [|exact T'|rewrite F4; exact GG1]. rewrite F1, F2, F3.
    eapply good_move; [|exact G1]. rewrite <- (everything_split _ T'), <- (everything_split _ T1). apply everything_leave, T1.
Qed.
