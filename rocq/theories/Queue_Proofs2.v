(** The invariant is kept. *)
From Coq Require Import Permutation.
From Verif Require Import Base Queue_Model Queue_Spec Queue_Proofs.

Ltac fields := cbn [set_main set_pool set_queue set_completed set_wr set_written set_exited script phase counter pool busy queue completed wr position total written exited].
Lemma flight_fields s s' : written s' = written s -> inhand s' = inhand s -> queue s' = queue s -> busy s' = busy s -> pool s' = pool s ->
  flight s' = flight s.
Proof. unfold flight. intros -> -> -> -> ->. reflexivity. Qed.

(** Notifying, from a state that satisfies everything but the wake-up condition. *)
Lemma blocked_same c s s' : queue s' = queue s -> completed s' = completed s -> position s' = position s -> blocked c s -> blocked c s'.
Proof. unfold blocked. intros -> -> ->. auto. Qed.

Lemma perm_snoc {A} (w h q x : list A) e : Permutation (w ++ h ++ (q ++ [e]) ++ x) ((w ++ h ++ q ++ x) ++ [e]).
Proof.
  rewrite <- !app_assoc. apply Permutation_app_head, Permutation_app_head, Permutation_app_head.
  cbn [app]. apply Permutation_cons_append.
Qed.

Lemma main_inv all c s s' : 0 < threads c -> Inv all c s -> main_step (threads c) s = Some s' -> Inv all c s'.
Proof.
  intros T I E. destruct I as [I1 I2 I3 I4 I5 I6 I7 I8 I9 I10 I11 I12 I13]. unfold main_step in E.
  destruct (phase s) eqn:P.
  - destruct (script s) as [|r rest] eqn:S.
    + injection E as <-. constructor; fields; try assumption; try (intros; discriminate).
      * intros W. destruct (I7 W) as [B|B]; [left; exact B|right].
        unfold told in *. rewrite P in B. cbn. destruct B as [B|[B|B]]; try discriminate B. right. right. exact B.
      * intros H. destruct (H eq_refl).
    + injection E as <-. symmetry in I1. apply skipn_cons in I1. destruct I1 as [N [K L]].
      unfold main_schedule. destruct (Z.eqb_spec (r_status r) 0) as [Z|Z]; cbn [negb].
      * constructor; fields; try assumption; try (intros; discriminate).
        -- symmetry. exact K.
        -- rewrite (firstn_S _ _ _ (expected_nth _ _ _ N)). unfold flight in *. fields. rewrite map_app, !app_assoc. cbn [map].
           rewrite !app_assoc in I3. apply Permutation_app_tail, I3.
        -- intros W. destruct (I7 W) as [B|B]; [left; exact B|right].
           unfold told in *. rewrite P in B. cbn. destruct B as [B|[B|B]]; try discriminate B. right. right. exact B.
        -- intros _. left. reflexivity.
      * constructor; fields; try assumption; try (intros; discriminate).
        -- symmetry. exact K.
        -- rewrite (firstn_S _ _ _ (expected_nth _ _ _ N)).
           assert (O : outcome_of r = r_status r) by (unfold outcome_of; destruct (Z.eqb_spec (r_status r) 0); [contradiction|reflexivity]).
           rewrite O. unfold flight in *. cbn. etransitivity; [apply perm_snoc|]. apply Permutation_app_tail, I3.
        -- intros _. right. left. reflexivity.
        -- intros _. right. reflexivity.
        -- intros W. destruct (I12 W) as [_ C]. specialize (I11 C). discriminate I11.
  - injection E as <-. destruct (notify_fields s) as (N1 & N2 & N3 & N4 & N5 & N6 & N7 & N8 & N9 & N10 & N11 & N12 & N13 & N14).
    constructor; fields; try (intros; discriminate).
    + exact I1.
    + exact I2.
    + rewrite (flight_fields s); [exact I3|..]; assumption.
    + rewrite N8, N10. exact I4.
    + unfold inhand in *. cbn [set_main wr]. rewrite N10, N12. exact I5.
    + rewrite N9, N10. exact I6.
    + intros W. destruct (N13 W).
    + rewrite N5. exact I8.
    + intros H. left. reflexivity.
    + rewrite N7. intros H. specialize (I11 H). discriminate I11.
    + rewrite N14, N6, N7. exact I12.
  - destruct (busy s) as [|x b] eqn:B; [|discriminate E]. destruct (pool s) as [|t p] eqn:Po.
    2: { cbn in E. destruct (threads c); [lia|discriminate E]. }
    cbn in E. injection E as <-. assert (S : script s = []).
    { destruct (script s) eqn:Q; [reflexivity|]. destruct I10 as [F|F]; [discriminate|discriminate F..]. }
    constructor; fields; rewrite ?B; try (intros; discriminate).
    + exact I1.
    + exact I2.
    + unfold flight, inhand in *. fields. rewrite B, Po in I3. exact I3.
    + exact I4.
    + exact I5.
    + exact I6.
    + intros _. right. right. left. reflexivity.
    + constructor.
    + auto.
    + intros F. rewrite S in F. destruct (F eq_refl).
    + auto.
    + intros W. destruct (I12 W) as [Q _]. auto.
  - injection E as <-. destruct (notify_fields s) as (N1 & N2 & N3 & N4 & N5 & N6 & N7 & N8 & N9 & N10 & N11 & N12 & N13 & N14).
    constructor; fields; try (intros; discriminate).
    + exact I1.
    + exact I2.
    + rewrite (flight_fields s); [exact I3|..]; assumption.
    + rewrite N8, N10. exact I4.
    + unfold inhand in *. cbn [set_main wr]. rewrite N10, N12. exact I5.
    + rewrite N9, N10. exact I6.
    + intros W. destruct (N13 W).
    + rewrite N5. exact I8.
    + rewrite N4, N5, N7. intros _. apply I9. reflexivity.
    + intros H. destruct (I10 H) as [F|F]; discriminate F.
    + intros _. reflexivity.
    + rewrite N14, N6, N7. exact I12.
  - destruct (wr s) eqn:W; try discriminate E. injection E as <-.
    constructor; fields; try assumption; try (intros; discriminate).
    + intros F. rewrite W in F. discriminate F.
    + intros H. destruct (I10 H) as [F|F]; discriminate F.
    + intros _. apply I12. reflexivity.
    + intros _. exact W.
  - discriminate E.
Qed.

Lemma consume_follows st a : follows (srcml_consume st a).
Proof.
  unfold srcml_consume. repeat match goal with |- context [match ?x with _ => _ end] => destruct x end; cbn; auto.
Qed.
Lemma follows_told es : follows es -> pushes es <> [] -> In Notify es.
Proof.
  induction es as [|e es IH]; intros F H; [destruct H; reflexivity|]. destruct e; cbn in *.
  - right. apply F.
  - left. reflexivity.
  - right. apply IH; [exact F|exact H].
Qed.

Lemma take_inv all c s s' : Inv all c s -> take_step (threads c) s = Some s' -> Inv all c s'.
Proof.
  intros I E. destruct I as [I1 I2 I3 I4 I5 I6 I7 I8 I9 I10 I11 I12 I13]. unfold take_step in E.
  destruct (pool s) as [|t rest] eqn:P; [discriminate E|]. destruct (length (busy s) <? threads c); [|discriminate E].
  injection E as <-. constructor; fields; try assumption.
  - unfold flight in *. cbn. rewrite map_app, concat_app. cbn [map concat]. rewrite app_nil_r.
    unfold pending at 2. cbn [fst snd]. rewrite consume_pushes. cbn [map]. rewrite P in I3. cbn [map] in I3.
    rewrite <- (app_assoc (concat _)). exact I3.
  - intros W. destruct (I7 W) as [B|B]; [left; exact B|right].
    unfold told in *. cbn. destruct B as [B|[B|[x [B1 B2]]]]; auto. right. right. exists x. split; [apply in_or_app; left; exact B1|exact B2].
  - apply Forall_app. split; [exact I8|]. constructor; [apply consume_follows|constructor].
  - intros H. destruct (I9 H) as [F _]. discriminate F.
Qed.

Lemma late_no_busy all c s i x : Inv all c s -> nth_error (busy s) i = Some x -> late (phase s) = false.
Proof.
  intros I N. destruct (late (phase s)) eqn:L; [|reflexivity]. destruct (i_late _ _ _ I L) as [_ [B _]].
  rewrite B in N. destruct i; discriminate N.
Qed.

Lemma pending_middle (l : list (item * list effect)) i x : nth_error l i = Some x ->
  concat (map pending l) = concat (map pending (firstn i l)) ++ pending x ++ concat (map pending (skipn (S i) l)).
Proof.
  intros H. transitivity (concat (map pending (firstn i l ++ x :: skipn (S i) l))).
  - f_equal. f_equal. apply middle, H.
  - rewrite map_app, concat_app. reflexivity.
Qed.
Lemma pending_others (a : list (item * list effect)) y b :
  concat (map pending (a ++ y :: b)) = concat (map pending a) ++ pending y ++ concat (map pending b).
Proof. rewrite map_app, concat_app. reflexivity. Qed.
Lemma task_inv all c i s s' : Inv all c s -> task_step i s = Some s' -> Inv all c s'.
Proof.
  intros I E. pose proof (late_no_busy all c s i) as L. pose proof I as [I1 I2 I3 I4 I5 I6 I7 I8 I9 I10 I11 I12 I13].
  unfold task_step in E.
  destruct (nth_error (busy s) i) as [[t es]|] eqn:N; [|discriminate E]. specialize (L _ I eq_refl).
  assert (Fl : follows es). { apply nth_error_In in N. rewrite Forall_forall in I8. exact (I8 _ N). }
  destruct es as [|[st| |] es].
  - injection E as <-. constructor; fields; try assumption.
    + unfold flight in *. cbn [set_pool pool busy queue written]. rewrite (middle _ _ _ N) in I3.
      rewrite map_app, concat_app in I3. rewrite map_app, concat_app. cbn [app map concat pending pushes snd] in *. exact I3.
    + intros W. destruct (I7 W) as [B|B]; [left; exact B|right].
      unfold told in *. cbn [set_pool phase busy]. destruct B as [B|[B|[x [B1 B2]]]]; auto. right. right. exists x. split; [|exact B2].
      destruct (in_others _ _ _ [] x N B1) as [->|Q]; [destruct B2|exact Q].
    + apply (forall_others _ _ _ _ [] N I8). constructor.
    + intros H. rewrite H in L. discriminate L.
  - injection E as <-. cbn in Fl. destruct Fl as [Fl1 Fl2].
    assert (Tl : told (set_queue (queue s ++ [(t, st)]) (set_pool (pool s) (firstn i (busy s) ++ [(t, es)] ++ skipn (S i) (busy s)) s))).
    { right. right. exists (t, es). split; [|exact Fl1]. cbn [set_queue set_pool busy]. apply in_or_app. right. left. reflexivity. }
    constructor; fields; try assumption.
    + etransitivity; [|exact I3]. unfold flight, inhand. fields.
      rewrite (pending_middle _ _ _ N), pending_others.
      apply Permutation_app_head, Permutation_app_head. rewrite <- !app_assoc. apply Permutation_app_head.
      change (pending (t, Push st :: es)) with ((t, st) :: pending (t, es)). cbn [app]. apply Permutation_middle.
    + intros _. right. exact Tl.
    + apply (forall_others _ _ _ _ [(t, es)] N I8). constructor; [exact Fl2|constructor].
    + intros H. rewrite H in L. discriminate L.
    + intros W. destruct (I12 W) as [_ C]. apply I11 in C. rewrite C in L. discriminate L.
  - injection E as <-. cbn in Fl. set (s1 := set_pool _ _ _).
    destruct (notify_fields s1) as (N1 & N2 & N3 & N4 & N5 & N6 & N7 & N8 & N9 & N10 & N11 & N12 & N13 & N14).
    constructor; rewrite ?N1, ?N2, ?N3, ?N4, ?N5, ?N6, ?N7, ?N8, ?N9, ?N10, ?N12, ?N14;
      unfold s1; fields; try assumption.
    + rewrite (flight_fields s1) by assumption. unfold s1, flight in *. cbn [set_pool pool busy queue written].
      rewrite (middle _ _ _ N) in I3. rewrite !map_app, !concat_app in I3. rewrite !map_app, !concat_app. exact I3.
    + intros W. destruct (N13 W).
    + apply (forall_others _ _ _ _ [(t, es)] N I8). constructor; [exact Fl|constructor].
    + intros H. rewrite H in L. discriminate L.
  - injection E as <-. constructor; fields; assumption.
Qed.

Lemma seq_snoc k n : seq k (S n) = seq k n ++ [k + n].
Proof. replace (S n) with (n + 1) by lia. rewrite seq_app. reflexivity. Qed.

Lemma writer_inv all c s s' : Inv all c s -> writer_step (ordered c) s = Some s' -> Inv all c s'.
Proof.
  intros I E. destruct I as [I1 I2 I3 I4 I5 I6 I7 I8 I9 I10 I11 I12 I13]. unfold writer_step in E.
  destruct (wr s) as [| |e|] eqn:W; try discriminate E.
  - assert (NF : phase s <> Finished) by (intros F; specialize (I13 F); congruence).
    assert (H0 : inhand s = []) by (unfold inhand; rewrite W; reflexivity).
    assert (Keep : forall w, inhand (set_wr w s) = [] -> (w = Sleeping -> blocked c s) ->
       (w = Returned -> queue s = [] /\ completed s = true) -> Inv all c (set_wr w s)).
    { intros w Hh Hs Hr. constructor; fields; try assumption.
      - rewrite (flight_fields s); try reflexivity; [exact I3|]. congruence.
      - rewrite Hh. rewrite H0 in I5. exact I5.
      - intros F. left. exact (Hs F).
      - intros F. destruct (NF F). }
    destruct (pop_min (queue s)) as [[e rest]|] eqn:Q.
    + destruct (ordered c) eqn:O; cbn [andb] in E.
      * destruct (Nat.eqb_spec (pos e) (position s + 1)) as [Pe|Pe]; cbn [negb] in E; injection E as <-.
        -- constructor; fields; try assumption; try (intros; discriminate).
           ++ etransitivity; [|exact I3]. unfold flight. unfold inhand. fields.
              rewrite W. apply Permutation_app_head. cbn [app]. symmetry.
              apply (Permutation_app_tail _ (pop_min_perm _ _ _ Q)).
           ++ intros _. unfold inhand in *. rewrite W in I5. rewrite app_nil_r in I5. cbn [set_wr set_queue wr].
              rewrite map_app, app_length, (I5 eq_refl). cbn [map length]. rewrite Nat.add_1_r, seq_snoc. rewrite Pe, I4. do 2 f_equal. lia.
           ++ intros F. destruct (NF F).
        -- apply Keep; [reflexivity| |discriminate]. intros _. unfold blocked. rewrite Q. auto.
      * injection E as <-.
        constructor; fields; try assumption; try (intros; discriminate).
        -- etransitivity; [|exact I3]. unfold flight. unfold inhand. fields.
           rewrite W. apply Permutation_app_head. cbn [app]. symmetry.
           apply (Permutation_app_tail _ (pop_min_perm _ _ _ Q)).
        -- rewrite O. intros; discriminate.
        -- intros F. destruct (NF F).
    + injection E as <-. destruct (completed s) eqn:C.
      * apply Keep; [reflexivity|discriminate|]. intros _. split; [apply pop_min_none, Q|reflexivity].
      * apply Keep; [reflexivity| |discriminate]. intros _. unfold blocked. rewrite Q. exact C.
  - injection E as <-. assert (H0 : inhand s = [e]) by (unfold inhand; rewrite W; reflexivity).
    assert (NF : phase s <> Finished) by (intros F; specialize (I13 F); congruence).
    constructor; fields; try assumption; try (intros; discriminate).
    + etransitivity; [|exact I3]. unfold flight. rewrite H0. cbn [inhand]. fields.
      rewrite <- app_assoc. apply Permutation_refl.
    + rewrite app_length. cbn. lia.
    + intros O. specialize (I5 O). rewrite H0 in I5. cbn [inhand set_wr wr]. rewrite app_nil_r. exact I5.
    + rewrite filter_app, app_length. cbn [filter]. unfold STATUS_OK. destruct (Z.eqb (snd e) 0); cbn [length]; rewrite I6, ?Nat.add_0_r; reflexivity.
    + intros F. destruct (NF F).
Qed.

Lemma step_inv all c l s s' : 0 < threads c -> Inv all c s -> step c l s = Some s' -> Inv all c s'.
Proof.
  intros T I E. unfold step in E. destruct (exited s); [discriminate E|]. destruct l.
  - exact (main_inv _ _ _ _ T I E).
  - exact (take_inv _ _ _ _ I E).
  - exact (task_inv _ _ _ _ _ I E).
  - exact (writer_inv _ _ _ _ I E).
  - destruct (wr s) eqn:W; try discriminate E. injection E as <-.
    assert (H0 : inhand s = []) by (unfold inhand; rewrite W; reflexivity).
    destruct I as [I1 I2 I3 I4 I5 I6 I7 I8 I9 I10 I11 I12 I13].
    constructor; fields; try assumption; try (intros; discriminate).
    + rewrite (flight_fields s); try reflexivity; [exact I3|]. rewrite H0. reflexivity.
    + rewrite H0 in I5. exact I5.
    + intros F. specialize (I13 F). rewrite W in I13. discriminate I13.
Qed.

Lemma steps_inv all c ls : forall s s', 0 < threads c -> Inv all c s -> steps c ls s = Some s' -> Inv all c s'.
Proof.
  induction ls as [|l ls IH]; intros s s' T I E; cbn in E.
  - injection E as <-. exact I.
  - destruct (step c l s) as [s1|] eqn:Q; [|discriminate E]. exact (IH s1 s' T (step_inv _ _ _ _ _ T I Q) E).
Qed.
