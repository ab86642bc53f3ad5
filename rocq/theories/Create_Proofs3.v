(** Creating srcML: namespaces, the single input, and the order of calls (C57). *)
From Verif Require Import Base Text_Model Text_Spec Text_Proofs3 Api_Model Api_Spec Api_Proofs Api_Proofs3 Writer_Model Writer_Spec Archive_Model Archive_Spec Input_Model Create_Model Create_Spec Create_Proofs Create_Proofs2.
Local Open Scope N_scope.

(** ** Namespaces of the inputs *)
Definition sets_of (ms : list mevent) : list call := flat_map (fun e => match e with MSet c => [c] | MSchedule _ => [] end) ms.
Lemma sets_of_app : forall x y, sets_of (x ++ y) = sets_of x ++ sets_of y.
Proof. intros x y. unfold sets_of. apply flat_map_app. Qed.
Lemma sets_of_map : forall cs, sets_of (map MSet cs) = cs.
Proof. induction cs as [|c cs IH]; [reflexivity|]. cbn. unfold sets_of in IH. rewrite IH. reflexivity. Qed.
Lemma sets_of_schedule : forall qs, sets_of (map MSchedule qs) = [].
Proof. induction qs as [|c cs IH]; [reflexivity|]. exact IH. Qed.
Lemma mild_regs : forall ms, Forall mild_event ms -> ns_regs (sets_of ms) = [].
Proof.
  intros ms F. induction F as [|e ms H F IH]; [reflexivity|]. destruct e as [c|q]; [|exact IH]. change (sets_of (MSet c :: ms)) with ([c] ++ sets_of ms). rewrite ns_regs_app, IH.
  destruct H as [->| ->]; reflexivity.
Qed.
Definition regs_of (r : crequest) (l : list input) : list (bytes * bytes) := if c_output_xml r then flat_map (input_namespaces r) l else [].
Lemma regs_of_app : forall r x y, regs_of r (x ++ y) = regs_of r x ++ regs_of r y.
Proof. intros r x y. unfold regs_of. destruct (c_output_xml r); [apply flat_map_app|reflexivity]. Qed.
Lemma srcml_regs : forall r u s, fine (input_srcml r u s) -> ns_regs (sets_of (h_events (input_srcml r u s))) = regs_of r [ISrcml u s].
Proof.
  intros r u [s|] F; [|destruct F as [_ F]; exfalso; apply F; reflexivity]. unfold input_srcml in *. destruct (chosen u (si_units s)) as [|q qs]; [destruct F as [F _]; exfalso; apply F; reflexivity|].
  cbn [h_events]. rewrite sets_of_app, sets_of_schedule, app_nil_r. unfold srcml_events, regs_of. destruct (c_output_xml r); [|reflexivity].
  rewrite sets_of_app, <- map_map with (f := ns_call) (g := MSet), sets_of_map, ns_regs_app, ns_regs_ns. cbn [flat_map input_namespaces]. rewrite app_nil_r. destruct (_ && _); reflexivity.
Qed.
Lemma dispatch_regs : forall r i, fine (dispatch r i) -> ns_regs (sets_of (h_events (dispatch r i))) = regs_of r (leaves i).
Proof.
  intros r. induction i as [u s|qs|ok l F|es|q|e] using input_rect'; intros E;
    try (cbn [leaves]; rewrite mild_regs by (apply leaf_mild; [intros; discriminate|unfold foreign; cbn [is_srcml]; rewrite andb_false_r; reflexivity]); unfold regs_of; destruct (c_output_xml r); reflexivity).
  - apply srcml_regs, E.
  - destruct (list_fine r ok l E) as (-> & G & ->). rewrite leaves_list. clear E. change (sets_of (MSet DisableSolitary :: h_events (go_list r l))) with ([DisableSolitary] ++ sets_of (h_events (go_list r l))).
    rewrite ns_regs_app. cbn [ns_regs flat_map app]. fold (ns_regs (sets_of (h_events (go_list r l)))).
    induction F as [|i l H F IH]; [unfold regs_of; destruct (c_output_xml r); reflexivity|]. destruct (go_cons r i l G) as (G1 & G2 & ->). cbn [flat_map].
    rewrite sets_of_app, ns_regs_app, regs_of_app, H, IH by assumption. reflexivity.
Qed.
Lemma handle_regs : forall r ins ms w fl, handle r ins = Some (ms, w, false, fl) -> ns_regs (sets_of ms) = regs_of r (all_leaves ins).
Proof.
  intros r. induction ins as [|[s i] ins IH]; intros ms w fl H; [injection H as <- <- <-; unfold regs_of; destruct (c_output_xml r); reflexivity|].
  destruct (handle_cons _ _ _ _ _ _ _ H) as (F & ms' & w' & fl' & H' & ->). unfold all_leaves. cbn [flat_map snd]. rewrite sets_of_app, ns_regs_app, regs_of_app, (dispatch_regs _ _ F), (IH _ _ _ H'). reflexivity.
Qed.

(** ** A single input *)
Lemma entry_later : forall es n, Forall (fun c => c = DisableSolitary \/ c = EnableHash) (sets_of (fst (entry_events true n es))).
Proof.
  induction es as [|e es IH]; intros n; [constructor|]. cbn [entry_events]. assert (X : Forall (fun c => c = DisableSolitary \/ c = EnableHash) (sets_of (if true && Nat.eqb n 0 then [MSet DisableSolitary; MSet EnableHash] else []))).
  { destruct (true && Nat.eqb n 0); cbn; auto. }
  destruct e; cbn [fst]; rewrite sets_of_app; apply Forall_app; (split; [exact X|]); apply IH.
Qed.
Lemma entry_plain : forall es n, sets_of (fst (entry_events false n es)) = [].
Proof. induction es as [|e es IH]; intros n; [reflexivity|]. cbn [entry_events andb]. destruct e; cbn [fst app]; apply IH. Qed.
Lemma text_later : forall qs, Forall (fun c => c = DisableSolitary) (sets_of (input_text qs)).
Proof. induction qs as [|q [|q' qs] IH]; [constructor|constructor|]. cbn [input_text] in *. constructor; [reflexivity|exact IH]. Qed.
Definition no_sets (ms : list mevent) : Prop := sets_of ms = [].
Lemma lone_events : forall r i, kind_of i <> HList -> kind_of i <> HDirectory -> fine (dispatch r i) -> sound i -> (is_srcml i = true -> c_output_xml r = true) ->
  exists pre rest, h_events (dispatch r i) = map MSet pre ++ rest /\ Forall early_call pre /\ disables pre = plural r i /\ hashes pre = container i /\
    Forall (fun c => c = DisableSolitary /\ plural r i = true \/ c = EnableHash /\ container i = true) (sets_of rest) /\ ns_regs (sets_of rest) = [] /\
    (plural r i = false -> (length (scheduled rest) <= 1)%nat).
Proof.
  intros r [u s|qs|ok l|es|q|e] K1 K2 F SO X; cbn [kind_of] in K1, K2; try congruence.
  - specialize (X eq_refl). destruct s as [s|]; [|destruct F as [_ F]; exfalso; apply F; reflexivity]. cbn [dispatch] in *. unfold input_srcml in *. cbn [sound] in SO.
    destruct (chosen u (si_units s)) as [|q qs] eqn:C; [destruct F as [F _]; exfalso; apply F; reflexivity|]. cbn [h_events]. unfold srcml_events. rewrite X.
    rewrite <- map_map with (f := ns_call) (g := MSet). set (l := if c_revision r then _ else _).
    exists ((if negb (si_solitary s) && Nat.eqb u 0 then [DisableSolitary] else []) ++ map ns_call l), (map MSchedule (q :: qs)).
    assert (ND : forall l, disables (map ns_call l) = false) by (induction l0 as [|n l0 IH]; [reflexivity|exact IH]).
    assert (NH : forall l, hashes (map ns_call l) = false) by (induction l0 as [|n l0 IH]; [reflexivity|exact IH]).
    split; [|split; [|split; [|split; [|split; [|split]]]]].
    + rewrite map_app. destruct (_ && _); reflexivity.
    + apply Forall_app. split; [destruct (_ && _); repeat constructor|apply ns_early].
    + unfold disables. rewrite existsb_app. fold (disables (map ns_call l)). rewrite ND, orb_false_r. cbn [plural]. rewrite X. destruct (si_solitary s), u; reflexivity.
    + unfold hashes. rewrite existsb_app. fold (hashes (map ns_call l)). rewrite NH, orb_false_r. destruct (_ && _); reflexivity.
    + rewrite sets_of_schedule. constructor.
    + rewrite sets_of_schedule. reflexivity.
    + rewrite scheduled_map. intros P. rewrite <- C, chosen_ok. cbn [plural] in P. destruct u as [|k].
      * rewrite X in P. apply SO. destruct (si_solitary s); [reflexivity|discriminate P].
      * destruct (nth_error _ k); cbn; lia.
  - cbn [dispatch h_events]. destruct qs as [|q [|q' qs]].
    + exists [], []. repeat split; try constructor; cbn; lia.
    + exists [], [MSchedule q]. repeat split; try constructor; cbn; lia.
    + exists [DisableSolitary], (MSchedule q :: input_text (q' :: qs)). repeat split; try (repeat constructor; fail).
      * change (sets_of (MSchedule q :: input_text (q' :: qs))) with (sets_of (input_text (q' :: qs))). eapply Forall_impl; [|apply text_later]. intros c ->. left. split; reflexivity.
      * change (sets_of (MSchedule q :: input_text (q' :: qs))) with (sets_of (input_text (q' :: qs))). apply mild_regs, text_mild.
      * discriminate.
  - exists [], [MSchedule q]. repeat split; try constructor; cbn; lia.
  - cbn [dispatch] in *. destruct e as [| | |c es].
    + exists [], []. repeat split; try constructor; cbn; lia.
    + exists [], []. repeat split; try constructor; cbn; lia.
    + destruct F as [F _]. exfalso. apply F. reflexivity.
    + cbn [input_entries h_events]. destruct c.
      * destruct es as [|e es]; [exists [], []; repeat split; try constructor; cbn; lia|].
        exists [DisableSolitary; EnableHash]. cbn [entry_events andb Nat.eqb].
        assert (G : exists rest, fst (entry_events true 0 (e :: es)) = map MSet [DisableSolitary; EnableHash] ++ rest).
        { cbn [entry_events andb Nat.eqb]. destruct e; eexists; reflexivity. }
        destruct G as (rest & G). exists rest. cbn [entry_events andb Nat.eqb] in G. split; [exact G|]. pose proof (entry_later (e :: es) 0) as Y. pose proof (entry_mild true (e :: es) 0) as Z.
        cbn [entry_events andb Nat.eqb] in Y, Z. rewrite G in Y, Z. rewrite sets_of_app, sets_of_map in Y. apply Forall_app in Y, Z. destruct Y as [_ Y]. destruct Z as [_ Z].
        split; [constructor; [left; left; reflexivity|constructor; [left; right; reflexivity|constructor]]|]. split; [reflexivity|]. split; [reflexivity|]. split; [|split; [apply mild_regs, Z|discriminate]].
        eapply Forall_impl; [|exact Y]. intros c [->| ->]; [left|right]; split; reflexivity.
      * exists [], (fst (entry_events false 0 es)). split; [reflexivity|]. split; [constructor|]. split; [destruct es; reflexivity|]. split; [destruct es; reflexivity|]. rewrite entry_plain.
        split; [constructor|]. split; [reflexivity|]. intros _. rewrite entry_scheduled. exact SO.
Qed.

(** ** The order of the calls *)
Lemma interleave_pre : forall m pre rest t, interleave m (map MSet pre ++ rest) [] t -> exists t', t = map ESet pre ++ t' /\ interleave m rest [] t'.
Proof.
  intros m. induction pre as [|c pre IH]; intros rest t H; [exists t; split; [reflexivity|exact H]|]. cbn [map app] in H. inversion H as [|c' ms p t1 H1| |]; subst.
  destruct (IH rest t1 H1) as (t' & -> & H'). exists t'. split; [reflexivity|exact H'].
Qed.
Definition op_units (t : list eop) : list cunit := flat_map (fun o => match o with EUnit u => [u] | _ => [] end) t.
Definition op_sets (t : list eop) : list call := flat_map (fun o => match o with ESet c => [c] | _ => [] end) t.
Definition op_quiet (o : eop) : Prop := match o with ESet _ | EUnit _ => True | _ => False end.
Lemma op_units_app : forall x y, op_units (x ++ y) = op_units x ++ op_units y. Proof. intros x y. apply flat_map_app. Qed.
Lemma op_sets_app : forall x y, op_sets (x ++ y) = op_sets x ++ op_sets y. Proof. intros x y. apply flat_map_app. Qed.
Lemma op_units_map : forall us, op_units (map EUnit us) = us.
Proof. induction us as [|u us IH]; [reflexivity|]. cbn. unfold op_units in IH. rewrite IH. reflexivity. Qed.
Lemma op_sets_map : forall us, op_sets (map EUnit us) = [].
Proof. induction us as [|u us IH]; [reflexivity|]. exact IH. Qed.
Lemma request_units : forall q, scalar q = false -> op_units (write_request Plain q) = units_of q /\ Forall op_quiet (write_request Plain q) /\
  op_sets (write_request Plain q) = if several q then [DisableSolitary] else [].
Proof.
  intros [w|[|b|s|s|us] u] S; try discriminate S; cbn [write_request].
  - repeat split. constructor.
  - destruct u as [[own v]|]; repeat split; repeat constructor.
  - destruct us as [|v [|v' us]].
    + destruct u as [[own v]|]; repeat split; repeat constructor.
    + repeat split. repeat constructor.
    + cbn [length Nat.ltb Nat.leb]. rewrite app_nil_r. rewrite op_units_app, op_sets_app, op_units_map, op_sets_map. repeat split. apply Forall_app. split; [repeat constructor|].
      apply Forall_map, Forall_forall. intros x _. exact I.
Qed.
Lemma interleave_plain : forall ms p t, interleave Plain ms p t -> Forall (fun q => scalar q = false) (scheduled ms) -> Forall op_quiet p ->
  op_units t = op_units p ++ flat_map units_of (scheduled ms) /\ Forall op_quiet t /\
  (forall c, In c (op_sets t) -> In c (op_sets p) \/ In c (sets_of ms) \/ c = DisableSolitary /\ existsb several (scheduled ms) = true).
Proof.
  intros ms p t H. induction H as [|c ms p t H IH|q ms p t H IH|o ms p t H IH]; intros S Q.
  - repeat split; [constructor|intros c []].
  - destruct (IH S Q) as (A & B & C). split; [exact A|]. split; [constructor; [exact I|exact B]|]. intros c' [<-|X]; [right; left; left; reflexivity|].
    destruct (C _ X) as [Y|[Y|Y]]; [left; exact Y|right; left; right; exact Y|right; right; exact Y].
  - change (scheduled (MSchedule q :: ms)) with (q :: scheduled ms) in *. inversion S as [|x y S1 S2]; subst. destruct (request_units q S1) as (U1 & U2 & U3).
    destruct (IH S2 (proj2 (Forall_app _ _ _) (conj Q U2))) as (A & B & C). split; [|split; [exact B|]].
    + rewrite A, op_units_app, U1, <- app_assoc. reflexivity.
    + intros c X. destruct (C c X) as [Y|[Y|[Y1 Y2]]].
      * rewrite op_sets_app, U3 in Y. apply in_app_or in Y. destruct Y as [Y|Y]; [left; exact Y|]. right. right. cbn [existsb]. destruct (several q); [|destruct Y]. destruct Y as [<-|[]]. split; reflexivity.
      * right. left. exact Y.
      * right. right. split; [exact Y1|]. cbn [existsb]. rewrite Y2. apply orb_true_r.
  - inversion Q as [|x y Q1 Q2]; subst. destruct (IH S Q2) as (A & B & C). split; [|split; [constructor; assumption|]].
    + destruct o; cbn [op_units flat_map app]; fold (op_units t) (op_units p); rewrite A; reflexivity.
    + intros c X. change (op_sets (o :: t)) with (op_sets ([o] ++ t)) in X. change (op_sets (o :: p)) with (op_sets ([o] ++ p)). rewrite op_sets_app in *. apply in_app_or in X.
      destruct X as [X|X]; [left; apply in_or_app; left; exact X|]. destruct (C c X) as [Y|Y]; [left; apply in_or_app; right; exact Y|right; exact Y].
Qed.
(** with at most one request, its calls come after the settings *)
Lemma interleave_rest : forall m p t, interleave m [] p t -> t = p.
Proof. intros m p t H. remember [] as ms eqn:E. induction H; try discriminate E; [reflexivity|]. rewrite (IHinterleave E). reflexivity. Qed.
Lemma interleave_one : forall m q t, interleave m [MSchedule q] [] t -> t = write_request m q.
Proof. intros m q t H. inversion H as [| |q' ms p t1 H1|]; subst. apply interleave_rest in H1. exact H1. Qed.
