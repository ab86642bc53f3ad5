(** C39: collecting the content of a unit. *)
From Verif Require Import Base Text_Model Text_Proofs Text_Proofs3 Api_Model Writer_Model Handoff_Model Handoff_Spec Sax_Model Sax_Spec.

(** * Events without calls *)
Fixpoint quiet_run (evs : list xev) (s : sst) : option sst :=
  match evs with
  | [] => Some s
  | e :: r => match run_micros (callback e s) s with (s', None) => quiet_run r s' | _ => None end
  end.
Lemma advance_quiet evs : forall s s' r err, quiet_run evs s = Some s' -> advance (evs ++ r) err s = advance r err s'.
Proof.
  induction evs as [|e evs IH]; intros s s' r err Q; cbn [quiet_run app advance] in *; [injection Q as <-; reflexivity|].
  destruct (run_micros (callback e s) s) as [s1 [[k ms]|]]; [discriminate Q|]. exact (IH _ _ _ _ Q).
Qed.
Lemma quiet_app a : forall b s s1 s2, quiet_run a s = Some s1 -> quiet_run b s1 = Some s2 -> quiet_run (a ++ b) s = Some s2.
Proof.
  induction a as [|e a IH]; intros b s s1 s2 Q R; cbn [quiet_run app] in *; [injection Q as <-; exact R|].
  destruct (run_micros (callback e s) s) as [s0 [[k ms]|]]; [discriminate Q|]. exact (IH _ _ _ _ Q R).
Qed.

(** * Slices *)
Lemma slice_mid A B C : slice (A ++ B ++ C) (length A) (length A + length B) = B.
Proof.
  unfold slice. replace (length A + length B - length A) with (length B) by lia.
  rewrite skipn_app, Nat.sub_diag, skipn_all. cbn [app skipn]. rewrite firstn_app, Nat.sub_diag, firstn_all. cbn [firstn]. apply app_nil_r.
Qed.
Lemma slice_at A B C D a b : D = A ++ B ++ C -> a = length A -> b = length A + length B -> slice D a b = B.
Proof. intros -> -> ->. apply slice_mid. Qed.
Lemma nth_mid {A} (a b : list A) : nth_error (a ++ b) (length a) = nth_error b 0.
Proof. rewrite nth_error_app2 by lia. rewrite Nat.sub_diag. reflexivity. Qed.
Lemma text_app a b : text_of (a ++ b) = text_of a ++ text_of b.
Proof. unfold text_of. rewrite map_app, concat_app. reflexivity. Qed.
Lemma text_cons e b : text_of (e :: b) = xtext e ++ text_of b.
Proof. reflexivity. Qed.

(** * Inside a unit, collecting *)
Definition cst (f : sst) D c b n x T l e : sst :=
  Sst D c b n (sp f) CUnit true (is_archive f) true (rootcalled f) (root f) (rootns f) x T l (cbegin f) e (ibegin f) (iend f) (cpp_prefix f) (bad f).
Definition collecting (f : sst) (pend : bool) (A0 A1 R P T : bytes) (l n : nat) (s : sst) : Prop :=
  exists e b x, s = cst f (A0 ++ A1 ++ R) (length A0 + length A1) b n x T l e /\
    if pend then exists A', A1 = A' ++ [62%N] /\ x = P ++ A' /\ b = length A0 + length A'
    else x = P ++ A1 /\ b = length A0 + length A1.
Definition opens (e : xev) : bool := match e with XStart t => negb (t_empty t) | _ => false end.

(** After closing the bracket, whatever the position libxml2 has reached. *)
Lemma close_ok f (pend : bool) A0 A1 R P T l n e b x c y r : R = y :: r -> y <> 62%N ->
  (if pend then exists A', A1 = A' ++ [62%N] /\ x = P ++ A' /\ b = length A0 + length A'
   else x = P ++ A1 /\ b = length A0 + length A1) ->
  close_bracket (cst f (A0 ++ A1 ++ R) c b n x T l e) = cst f (A0 ++ A1 ++ R) c (length A0 + length A1) n (P ++ A1) T l e.
Proof.
  intros -> Hy C. unfold close_bracket, cst. cbn [doc base]. destruct pend.
  - destruct C as [A' [-> [-> ->]]].
    replace (nth_error (A0 ++ (A' ++ [62%N]) ++ y :: r) (length A0 + length A')) with (Some 62%N)
      by (rewrite <- (app_assoc A'), (app_assoc A0), <- app_length, nth_mid; reflexivity).
    unfold append. cbn. rewrite <- !app_assoc, !app_length. cbn [length app]. rewrite (Nat.add_1_r (length A')), <- plus_n_Sm. reflexivity.
  - destruct C as [-> ->].
    replace (nth_error (A0 ++ A1 ++ y :: r) (length A0 + length A1)) with (Some y)
      by (rewrite (app_assoc A0), <- app_length, nth_mid; reflexivity).
    destruct y as [|p]; [reflexivity|]. destruct (N.eq_dec (N.pos p) 62) as [E|E]; [contradiction|].
    repeat (destruct p as [p|p|]; try reflexivity). exfalso. apply E. reflexivity.
Qed.

(** The nesting of the events; [solo]: no element called unit. *)
Fixpoint flat (solo : bool) (n : nat) (evs : list xev) : Prop :=
  match evs with
  | [] => True
  | XStart t :: r => flat solo (S n) r
  | XEnd name _ :: r => match n with S n' => (solo = true -> name <> txt "unit") /\ flat solo n' r | 0 => False end
  | _ :: r => flat solo n r
  end.
Definition depth_after (e : xev) (n : nat) : nat := match e with XStart _ => S n | XEnd _ _ => pred n | _ => n end.

Lemma cst_doc f D c b n x T l e : doc (cst f D c b n x T l e) = D. Proof. reflexivity. Qed.

Ltac norm := cbv beta iota zeta delta [advance_by set_pos set_depth set_text set_marks append append_src base_here cst
   doc cur base depth sp cp on is_archive collect rootcalled root rootns srcml src loc cbegin cend ibegin iend cpp_prefix bad].

Lemma collect_step f solo pend A0 A1 R P T l n e s : is_archive f = negb solo -> sp f = SElement \/ leaf e ->
  collecting f pend A0 A1 (xtext e ++ R) P T l ((if solo then 1 else 2) + n) s -> event_ok pend e -> flat solo n [e] ->
  exists s', run_micros (callback e s) s = (s', None) /\
    collecting f (opens e) A0 (A1 ++ xtext e) R P (T ++ text_piece e) (l + count_byte 10 (char_piece e)) ((if solo then 1 else 2) + depth_after e n) s'.
Proof.
  intros Ar Hs [ce [b [x [-> C]]]] Ev Fl. set (d := (if solo then 1 else 2) : nat) in *.
  assert (Le : b <= length A0 + length A1).
  { destruct pend; [destruct C as [A' [-> [_ ->]]]; rewrite app_length; cbn [length]; lia|destruct C as [_ ->]; lia]. }
  assert (Sl : forall X R', collecting f pend A0 A1 (X ++ R') P T l (d + n) (cst f (A0 ++ A1 ++ X ++ R') (length A0 + length A1) b (d + n) x T l ce) ->
     x ++ slice (A0 ++ A1 ++ X ++ R') b (length A0 + length A1 + length X) = P ++ A1 ++ X).
  { intros X R' _. destruct pend.
    - destruct C as [A' [-> [-> ->]]]. rewrite (slice_at (A0 ++ A') ([62%N] ++ X) R'); [|rewrite <- !app_assoc; reflexivity|rewrite app_length; lia|rewrite !app_length; cbn [length app]; lia].
      rewrite <- !app_assoc. reflexivity.
    - destruct C as [-> ->]. rewrite (slice_at (A0 ++ A1) X R'); [|rewrite <- !app_assoc; reflexivity|rewrite app_length; lia|rewrite !app_length; lia].
      rewrite <- !app_assoc. reflexivity. }
  assert (In0 : collecting f pend A0 A1 (xtext e ++ R) P T l (d + n) (cst f (A0 ++ A1 ++ xtext e ++ R) (length A0 + length A1) b (d + n) x T l ce))
    by (exists ce, b, x; split; [reflexivity|exact C]).
  destruct e as [t|nm raw|plain raw text|raw value|raw value|raw|raw]; cbn [xtext opens text_piece char_piece depth_after flat event_ok] in *.
  - (* start tag *)
    destruct Ev as [[rr Er] Esc]. rewrite <- app_assoc in *.
    set (K := (if t_empty t then [] else [62%N]) ++ R) in *.
    set (S0 := cst f (A0 ++ A1 ++ t_raw t ++ K) (length A0 + length A1) b (d + n) x T l ce).
    assert (Cl : close_bracket (advance_by (length (t_raw t)) S0)
                 = cst f (A0 ++ A1 ++ t_raw t ++ K) (length A0 + length A1 + length (t_raw t)) (length A0 + length A1) (d + n) (P ++ A1) T l ce).
    { subst S0. norm. change (close_bracket (cst f (A0 ++ A1 ++ t_raw t ++ K) (length A0 + length A1 + length (t_raw t)) b (d + n) x T l ce) = cst f (A0 ++ A1 ++ t_raw t ++ K) (length A0 + length A1 + length (t_raw t)) (length A0 + length A1) (d + n) (P ++ A1) T l ce).
      refine (close_ok f pend A0 A1 (t_raw t ++ K) P T l (d + n) ce b x _ 60%N (rr ++ K) _ _ C); [rewrite Er; reflexivity|discriminate]. }
    assert (Sl2 : slice (A0 ++ A1 ++ t_raw t ++ K) (length A0 + length A1) (length A0 + length A1 + length (t_raw t)) = t_raw t).
    { apply (slice_at (A0 ++ A1) (t_raw t) K); [rewrite <- !app_assoc; reflexivity|rewrite app_length; lia|rewrite !app_length; lia]. }
    assert (Do : start_element_do t (advance_by (length (t_raw t)) S0) =
       cst f (A0 ++ A1 ++ t_raw t ++ K) (length A0 + length A1 + length (t_raw t)) (length A0 + length A1 + length (t_raw t)) (d + n)
           (P ++ A1 ++ t_raw t) (T ++ text_piece (XStart t)) l ce).
    { unfold start_element_do. rewrite Cl. subst S0. change (Sax_Model.collect (advance_by (length (t_raw t)) _)) with true. cbn match. cbn zeta.
      cbn [cur base cst]. replace (length A0 + length A1 + length (t_raw t) <? length A0 + length A1) with false by (symmetry; apply Nat.ltb_ge; lia).
      unfold append. cbn [doc base cur cst srcml src loc set_text]. rewrite Sl2. cbn [text_piece]. destruct (beqb (t_name t) (txt "escape")) eqn:Q.
      - apply beqb_true in Q. specialize (Esc Q). destruct (t_attrs t) as [|[k v] a]; [contradiction Esc; reflexivity|].
        norm. rewrite <- !app_assoc. reflexivity.
      - norm. rewrite app_nil_r, <- !app_assoc. reflexivity. }
    destruct Hs as [Hs|[]]. cbn [callback]. change (sp S0) with (sp f). rewrite Hs. cbn [app run_micros]. rewrite Do.
    eexists. split; [reflexivity|]. rewrite Nat.add_0_r. unfold collecting.
    exists ce, (length A0 + length A1 + length (t_raw t)), (P ++ A1 ++ t_raw t). split.
    + norm. subst K. rewrite <- !app_assoc, !app_length. f_equal; [|lia]. destruct (t_empty t); cbn [length]; lia.
    + destruct (t_empty t); cbn [negb].
      * rewrite app_nil_r, !app_length. split; [reflexivity|lia].
      * exists (A1 ++ t_raw t). rewrite !app_length, <- !app_assoc. split; [reflexivity|split; [reflexivity|lia]].
  - (* end tag *)
    destruct n as [|n]; [destruct Fl|]. destruct Fl as [Nm _].
    set (S0 := cst f (A0 ++ A1 ++ raw ++ R) (length A0 + length A1) b (d + S n) x T l ce).
    cbn [callback app]. unfold end_element. change (Sax_Model.collect S0) with true. change (cur S0) with (length A0 + length A1). change (base S0) with b.
    replace (length A0 + length A1 + length raw <? b) with false by (symmetry; apply Nat.ltb_ge; lia). cbn [andb].
    assert (Z : (if beqb nm (txt "unit") then (if (depth S0 =? 2) || negb (is_archive S0) then end_unit else []) ++ (if depth S0 =? 1 then end_root S0 else []) else []) = []).
    { destruct (beqb nm (txt "unit")) eqn:Q; [|reflexivity]. apply beqb_true in Q. change (depth S0) with (d + S n). change (is_archive S0) with (is_archive f). rewrite Ar.
      destruct solo; [exfalso; exact (Nm eq_refl Q)|]. subst d. cbn [negb]. rewrite orb_false_r.
      replace (2 + S n =? 2) with false by (symmetry; apply Nat.eqb_neq; lia). replace (2 + S n =? 1) with false by (symmetry; apply Nat.eqb_neq; lia). reflexivity. }
    cbv zeta. rewrite Z. cbn [app run_micros]. eexists. split; [reflexivity|].
    unfold end_element_do. subst S0. norm. rewrite (Sl raw R In0).
    exists (S (length x)), (length A0 + length A1 + length raw), (P ++ A1 ++ raw). split.
    { change (count_byte 10 []) with 0. rewrite Nat.add_0_r, app_nil_r. unfold cst. rewrite <- !app_assoc. rewrite !app_length.
      replace (pred (d + S n)) with (d + n) by lia. rewrite Nat.add_assoc. reflexivity. }
    rewrite app_length. split; [reflexivity|lia].
  - (* text *)
    destruct Ev as [[c0 [r0 [Er Hc]]] Pl]. clear Fl.
    assert (E1 : raw ++ R = c0 :: r0 ++ R) by (rewrite Er; reflexivity).
    destruct plain.
    + specialize (Pl eq_refl). subst text. cbn [callback run_micros]. eexists. split; [reflexivity|].
      unfold characters. change (cp (cst f (A0 ++ A1 ++ raw ++ R) (length A0 + length A1) b (d + n) x T l ce)) with CUnit. unfold characters_unit.
      change (Sax_Model.collect (cst f (A0 ++ A1 ++ raw ++ R) (length A0 + length A1) b (d + n) x T l ce)) with true. cbn match. cbv zeta.
      match goal with |- context [close_bracket ?X] =>
        replace (close_bracket X) with (cst f (A0 ++ A1 ++ raw ++ R) (length A0 + length A1) (length A0 + length A1) (d + n) (P ++ A1) (T ++ raw) (l + count_byte 10 raw) ce)
          by (symmetry; exact (close_ok f pend A0 A1 (raw ++ R) P _ _ (d + n) ce b x _ c0 (r0 ++ R) E1 Hc C)) end.
      cbn [base cur cst]. rewrite Nat.eqb_refl. norm.
      exists ce, (length A0 + length A1 + length raw), (P ++ A1 ++ raw). split; [unfold cst; rewrite <- !app_assoc, !app_length, Nat.add_assoc; reflexivity|].
      rewrite !app_length. split; [reflexivity|lia].
    + cbn [callback run_micros]. eexists. split; [reflexivity|].
      unfold characters. change (cp (advance_by (length raw) (cst f (A0 ++ A1 ++ raw ++ R) (length A0 + length A1) b (d + n) x T l ce))) with CUnit. unfold characters_unit.
      change (Sax_Model.collect (advance_by (length raw) (cst f (A0 ++ A1 ++ raw ++ R) (length A0 + length A1) b (d + n) x T l ce))) with true. cbn match. cbv zeta.
      match goal with |- context [close_bracket ?X] =>
        replace (close_bracket X) with (cst f (A0 ++ A1 ++ raw ++ R) (length A0 + length A1 + length raw) (length A0 + length A1) (d + n) (P ++ A1) (T ++ text) (l + count_byte 10 text) ce)
          by (symmetry; exact (close_ok f pend A0 A1 (raw ++ R) P _ _ (d + n) ce b x _ c0 (r0 ++ R) E1 Hc C)) end.
      cbn [base cur cst]. replace (length A0 + length A1 =? length A0 + length A1 + length raw) with false by (symmetry; apply Nat.eqb_neq; rewrite Er; cbn [length]; lia).
      unfold append_to. cbn [base cur cst doc]. replace (length A0 + length A1 + length raw <? length A0 + length A1) with false by (symmetry; apply Nat.ltb_ge; lia).
      rewrite (slice_at (A0 ++ A1) raw R); [|rewrite <- !app_assoc; reflexivity|rewrite app_length; lia|rewrite !app_length; lia].
      norm. exists ce, (length A0 + length A1 + length raw), (P ++ A1 ++ raw). split; [unfold cst; rewrite <- !app_assoc, !app_length, Nat.add_assoc; reflexivity|].
      rewrite !app_length. split; [reflexivity|lia].
  - (* comment *)
    destruct Ev as [Er ->]. destruct C as [-> ->]. cbn [callback]. change (on (cst f (A0 ++ A1 ++ raw ++ R) (length A0 + length A1) (length A0 + length A1) (d + n) (P ++ A1) T l ce)) with true.
    cbn [run_micros]. eexists. split; [reflexivity|]. unfold comment. norm. rewrite <- Er.
    exists ce, (length A0 + length A1 + length raw), (P ++ A1 ++ raw). split; [change (count_byte 10 []) with 0; rewrite Nat.add_0_r, app_nil_r; unfold cst; rewrite <- !app_assoc, !app_length, Nat.add_assoc; reflexivity|].
    rewrite !app_length. split; [reflexivity|lia].
  - (* CDATA *)
    cbn [callback]. change (on (cst f (A0 ++ A1 ++ raw ++ R) (length A0 + length A1) b (d + n) x T l ce)) with true.
    cbn [run_micros]. eexists. split; [reflexivity|]. unfold cdata_block, append_to. norm.
    replace (length A0 + length A1 + length raw <? b) with false by (symmetry; apply Nat.ltb_ge; lia). norm. rewrite (Sl raw R In0).
    exists ce, (length A0 + length A1 + length raw), (P ++ A1 ++ raw). split; [change (count_byte 10 []) with 0; rewrite Nat.add_0_r; unfold cst; rewrite <- !app_assoc, !app_length, Nat.add_assoc; reflexivity|].
    rewrite !app_length. split; [reflexivity|lia].
  - (* processing instruction *)
    cbn [callback]. change (on (cst f (A0 ++ A1 ++ raw ++ R) (length A0 + length A1) b (d + n) x T l ce)) with true.
    cbn [run_micros]. eexists. split; [reflexivity|]. unfold processing_instruction, append_to. norm.
    replace (length A0 + length A1 + length raw <? b) with false by (symmetry; apply Nat.ltb_ge; lia). norm. rewrite (Sl raw R In0).
    exists ce, (length A0 + length A1 + length raw), (P ++ A1 ++ raw). split; [change (count_byte 10 []) with 0; rewrite Nat.add_0_r, app_nil_r; unfold cst; rewrite <- !app_assoc, !app_length, Nat.add_assoc; reflexivity|].
    rewrite !app_length. split; [reflexivity|lia].
  - destruct Ev.
Qed.
