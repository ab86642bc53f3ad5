(** Creating srcML: the events of the main thread and the order of calls (C57). *)
From Verif Require Import Base Text_Model Text_Spec Text_Proofs3 Api_Model Api_Spec Api_Proofs Writer_Model Writer_Spec Archive_Model Archive_Spec Input_Model Create_Model Create_Spec.
Local Open Scope N_scope.

(** ** Induction on inputs *)
Lemma input_rect' : forall P : input -> Prop,
  (forall u s, P (ISrcml u s)) -> (forall qs, P (IText qs)) -> (forall ok l, Forall P l -> P (IList ok l)) -> (forall es, P (IDirectory es)) ->
  (forall q, P (IFile q)) -> (forall e, P (IEntries e)) -> forall i, P i.
Proof.
  intros P H1 H2 H3 H4 H5 H6. fix IH 1. intros [u s|qs|ok l|es|q|e]; [apply H1|apply H2| |apply H4|apply H5|apply H6].
  apply H3. induction l as [|i l IHl]; constructor; [apply IH|exact IHl].
Qed.
Lemma leaves_list : forall ok l, leaves (IList ok l) = flat_map leaves l.
Proof. intros ok l. cbn [leaves]. induction l as [|i l IH]; [reflexivity|]. cbn [flat_map]. rewrite <- IH. reflexivity. Qed.
Lemma sources_list : forall ok l, sources (IList ok l) = flat_map sources l.
Proof. intros ok l. cbn [sources]. induction l as [|i l IH]; [reflexivity|]. cbn [flat_map]. rewrite <- IH. reflexivity. Qed.
(** the loop over the lines of a list *)
Fixpoint go_list (r : crequest) (l : list input) : hresult :=
  match l with
  | [] => HResult [] false (Handled 1)
  | i :: l => let x := dispatch r i in match h_result x with Refused => x | _ => then_do x (go_list r l) end
  end.
Lemma dispatch_list : forall r ok l, dispatch r (IList ok l) = then_do (HResult [MSet DisableSolitary] false (Handled 1)) (if ok then go_list r l else HResult [] true Refused).
Proof.
  intros r ok l. cbn [dispatch]. f_equal. destruct ok; [|reflexivity]. induction l as [|i l IH]; [reflexivity|]. cbn [go_list]. rewrite <- IH. reflexivity.
Qed.

(** ** The requests are the sources *)
Lemma scheduled_app : forall x y, scheduled (x ++ y) = scheduled x ++ scheduled y.
Proof. intros x y. unfold scheduled. apply flat_map_app. Qed.
Lemma scheduled_map : forall qs, scheduled (map MSchedule qs) = qs.
Proof. induction qs as [|q qs IH]; [reflexivity|]. cbn. unfold scheduled in IH. rewrite IH. reflexivity. Qed.
Lemma scheduled_sets : forall cs, scheduled (map MSet cs) = [].
Proof. induction cs as [|c cs IH]; [reflexivity|]. exact IH. Qed.
Lemma chosen_ok : forall u (l : list creq), chosen u l = match u with O => l | S k => match nth_error l k with Some q => [q] | None => [] end end.
Proof. intros [|k] l; [reflexivity|]. cbn [chosen]. revert l. induction k as [|k IH]; intros [|q l]; try reflexivity. exact (IH l). Qed.
Lemma text_scheduled : forall qs, scheduled (input_text qs) = qs.
Proof. induction qs as [|q [|q' qs] IH]; [reflexivity|reflexivity|]. cbn [input_text] in *. cbn in *. f_equal. exact IH. Qed.
Lemma entry_scheduled : forall c es n, scheduled (fst (entry_events c n es)) = found (Opened c es).
Proof.
  intros c. induction es as [|e es IH]; intros n; [reflexivity|]. cbn [entry_events found flat_map]. cbn [found] in IH.
  destruct e; cbn [fst]; rewrite scheduled_app; (destruct (c && Nat.eqb n 0); cbn [scheduled flat_map app]); try exact (IH n); try exact (IH (S n)); f_equal; exact (IH (S n)).
Qed.
Lemma entries_scheduled : forall e, h_result (input_entries e) <> Exits -> scheduled (h_events (input_entries e)) = found e.
Proof. intros [| | |c es] H; try reflexivity. cbn [input_entries h_events]. apply entry_scheduled. Qed.
Lemma directory_scheduled : forall es, h_result (input_directory es) <> Exits -> scheduled (h_events (input_directory es)) = flat_map found es.
Proof.
  induction es as [|e es IH]; intros H; [reflexivity|]. cbn [input_directory fold_right] in *. fold (input_directory es) in *. unfold then_do in *.
  pose proof (entries_scheduled e) as E. cbn [flat_map].
  destruct (h_result (input_entries e)) eqn:Q; cbn [h_result h_events] in *; try congruence; rewrite scheduled_app, IH, E by (congruence || assumption); reflexivity.
Qed.
Definition fine (x : hresult) : Prop := h_result x <> Exits /\ h_result x <> Refused.
Lemma fine_do : forall x y, h_result x <> Refused -> fine (then_do x y) -> fine x /\ fine y /\ h_events (then_do x y) = h_events x ++ h_events y.
Proof. intros x y R [A B]. unfold then_do, fine in *. destruct (h_result x) eqn:Q; cbn [h_result h_events] in *; repeat split; congruence. Qed.
Lemma go_cons : forall r i l, fine (go_list r (i :: l)) -> fine (dispatch r i) /\ fine (go_list r l) /\ h_events (go_list r (i :: l)) = h_events (dispatch r i) ++ h_events (go_list r l).
Proof.
  intros r i l F. cbn [go_list] in *. cbv zeta in *. destruct (h_result (dispatch r i)) eqn:Q; [| |].
  - apply fine_do; [rewrite Q; discriminate|exact F].
  - destruct F as [_ F]. contradiction.
  - apply fine_do; [rewrite Q; discriminate|exact F].
Qed.
Lemma list_fine : forall r ok l, fine (dispatch r (IList ok l)) -> ok = true /\ fine (go_list r l) /\ h_events (dispatch r (IList ok l)) = MSet DisableSolitary :: h_events (go_list r l).
Proof.
  intros r ok l F. rewrite dispatch_list in *. unfold then_do in *. cbn [h_result h_events app] in *. destruct ok; [split; [reflexivity|split; [exact F|reflexivity]]|].
  destruct F as [_ F]. exfalso. apply F. reflexivity.
Qed.
Lemma dispatch_scheduled : forall r i, fine (dispatch r i) -> scheduled (h_events (dispatch r i)) = sources i.
Proof.
  intros r. induction i as [u s|qs|ok l F|es|q|e] using input_rect'; intros E.
  - destruct s as [s|]; [|destruct E as [_ E]; exfalso; apply E; reflexivity]. cbn [dispatch input_srcml] in *. pose proof (chosen_ok u (si_units s)) as CH.
    destruct (chosen u (si_units s)) as [|q qs] eqn:C; [destruct E as [E _]; exfalso; apply E; reflexivity|].
    cbn [h_events]. rewrite scheduled_app, scheduled_map.
    assert (SE : scheduled (srcml_events r u s) = []).
    { unfold srcml_events. destruct (c_output_xml r); [|reflexivity]. rewrite scheduled_app. rewrite <- map_map with (f := ns_call) (g := MSet). rewrite scheduled_sets. destruct (_ && _); reflexivity. }
    rewrite SE. cbn [app]. rewrite CH. destruct u; reflexivity.
  - apply text_scheduled.
  - destruct (list_fine r ok l E) as (-> & G & ->). rewrite sources_list. change (scheduled (MSet DisableSolitary :: h_events (go_list r l))) with (scheduled (h_events (go_list r l))).
    clear E. induction l as [|i l IH]; [reflexivity|]. destruct (go_cons r i l G) as (G1 & G2 & ->). inversion F; subst. rewrite scheduled_app. cbn [flat_map]. f_equal; [auto|]. apply IH; assumption.
  - cbn [dispatch]. apply directory_scheduled. apply E.
  - reflexivity.
  - cbn [dispatch]. apply entries_scheduled. apply E.
Qed.
(** the inputs were all handled *)
Lemma handle_cons : forall r s i ins ms w fl, handle r ((s, i) :: ins) = Some (ms, w, false, fl) ->
  fine (dispatch r i) /\ exists ms' w' fl', handle r ins = Some (ms', w', false, fl') /\ ms = h_events (dispatch r i) ++ ms'.
Proof.
  intros r s i ins ms w fl H. cbn [handle] in H. cbv zeta in H. unfold fine. destruct (h_result (dispatch r i)) eqn:Q; try discriminate.
  destruct (handle r ins) as [[[[ms' w'] rf'] fl']|]; [|discriminate H]. injection H as E1 E2 E3 E4. subst. split; [split; discriminate|].
  exists ms', w', fl'. split; reflexivity.
Qed.
Lemma handle_scheduled : forall r ins ms w fl, handle r ins = Some (ms, w, false, fl) -> scheduled ms = all_sources ins.
Proof.
  intros r. induction ins as [|[s i] ins IH]; intros ms w fl H; [injection H as <- <- <-; reflexivity|].
  destruct (handle_cons _ _ _ _ _ _ _ H) as (F & ms' & w' & fl' & H' & ->). rewrite scheduled_app. unfold all_sources. cbn [flat_map snd]. f_equal; [apply dispatch_scheduled, F|apply (IH _ _ _ H')].
Qed.

(** ** Which settings the main thread makes *)
Definition mild (c : call) : Prop := c = DisableSolitary \/ c = EnableHash.
Definition early_call (c : call) : Prop := mild c \/ exists n, c = ns_call n.
Definition mild_event (e : mevent) : Prop := match e with MSet c => mild c | MSchedule _ => True end.
Definition staged (ms : list mevent) : Prop := exists pre rest, ms = map MSet pre ++ rest /\ Forall early_call pre /\ Forall mild_event rest.
Definition only_sets (ms : list mevent) : Prop := exists pre, ms = map MSet pre /\ Forall mild pre.
Lemma mild_staged : forall ms, Forall mild_event ms -> staged ms.
Proof. intros ms H. exists [], ms. split; [reflexivity|]. split; [constructor|exact H]. Qed.
Lemma staged_app : forall x y, staged x -> Forall mild_event y -> staged (x ++ y).
Proof.
  intros x y (pre & rest & -> & A & B) C. exists pre, (rest ++ y). rewrite app_assoc. split; [reflexivity|]. split; [exact A|]. apply Forall_app. split; assumption.
Qed.
Lemma sets_staged : forall x y, only_sets x -> staged y -> staged (x ++ y).
Proof.
  intros x y (p & -> & P) (pre & rest & -> & A & B). exists (p ++ pre), rest. rewrite map_app, <- app_assoc. split; [reflexivity|]. split; [|exact B].
  apply Forall_app. split; [|exact A]. eapply Forall_impl; [|exact P]. intros c M. left. exact M.
Qed.
Lemma sets_mild : forall x, only_sets x -> Forall mild_event x.
Proof. intros x (p & -> & P). apply Forall_map. exact P. Qed.
Lemma schedules_mild : forall qs, Forall mild_event (map MSchedule qs).
Proof. intros qs. apply Forall_map. apply Forall_forall. intros q _. exact I. Qed.
Lemma text_mild : forall qs, Forall mild_event (input_text qs).
Proof. induction qs as [|q [|q' qs] IH]; [constructor|repeat constructor|]. cbn [input_text] in *. constructor; [left; reflexivity|]. constructor; [exact I|exact IH]. Qed.
Lemma entry_mild : forall c es n, Forall mild_event (fst (entry_events c n es)).
Proof.
  intros c. induction es as [|e es IH]; intros n; [constructor|]. cbn [entry_events].
  assert (X : Forall mild_event (if c && Nat.eqb n 0 then [MSet DisableSolitary; MSet EnableHash] else [])).
  { destruct (c && Nat.eqb n 0); [|constructor]. constructor; [left; reflexivity|]. constructor; [right; reflexivity|constructor]. }
  destruct e; cbn [fst]; apply Forall_app; (split; [exact X|]); try apply IH. constructor; [exact I|apply IH].
Qed.
Lemma entries_mild : forall e, Forall mild_event (h_events (input_entries e)).
Proof. intros [| | |c es]; try constructor. apply entry_mild. Qed.
Lemma directory_mild : forall es, Forall mild_event (h_events (input_directory es)).
Proof.
  induction es as [|e es IH]; [constructor|]. cbn [input_directory fold_right]. fold (input_directory es). unfold then_do.
  destruct (h_result (input_entries e)); cbn [h_events]; try (apply Forall_app; split; [apply entries_mild|exact IH]). apply entries_mild.
Qed.
Lemma srcml_staged : forall r u s, staged (h_events (input_srcml r u s)).
Proof.
  intros r u [s|]; [|apply mild_staged; constructor]. unfold input_srcml.
  assert (X : forall y, Forall mild_event y -> staged (srcml_events r u s ++ y)).
  { intros y M. unfold srcml_events. destruct (c_output_xml r); [|apply mild_staged; exact M].
    rewrite <- map_map with (f := ns_call) (g := MSet). set (l := if c_revision r then _ else _).
    exists ((if negb (si_solitary s) && Nat.eqb u 0 then [DisableSolitary] else []) ++ map ns_call l), y. split; [|split; [|exact M]].
    - rewrite map_app. destruct (_ && _); reflexivity.
    - apply Forall_app. split; [destruct (_ && _); repeat constructor|]. apply Forall_map. apply Forall_forall. intros n _. right. exists n. reflexivity. }
  destruct (chosen u (si_units s)); cbn [h_events]; [rewrite <- (app_nil_r (srcml_events r u s)); apply X; constructor|apply X, schedules_mild].
Qed.
Lemma srcml_mild : forall r u s, c_output_xml r = false -> Forall mild_event (h_events (input_srcml r u s)).
Proof.
  intros r u [s|] X; [|constructor]. unfold input_srcml, srcml_events. rewrite X. destruct (chosen u (si_units s)); cbn [h_events app]; [constructor|apply schedules_mild].
Qed.
Definition foreign (r : crequest) (i : input) : bool := negb (c_output_xml r && is_srcml i).
Lemma go_mild : forall r l, Forall (fun i => forallb (foreign r) (leaves i) = true -> Forall mild_event (h_events (dispatch r i))) l -> fine (go_list r l) ->
  forallb (foreign r) (flat_map leaves l) = true -> Forall mild_event (h_events (go_list r l)).
Proof.
  intros r l F. induction F as [|i l H F IH]; intros G A; [constructor|]. destruct (go_cons r i l G) as (G1 & G2 & ->). cbn [flat_map] in A. rewrite forallb_app in A.
  apply andb_prop in A. destruct A. apply Forall_app. split; [apply H; assumption|apply IH; assumption].
Qed.
Lemma leaf_mild : forall r i, (forall ok l, i <> IList ok l) -> foreign r i = true -> Forall mild_event (h_events (dispatch r i)).
Proof.
  intros r [u s|qs|ok l|es|q|e] N A; cbn [dispatch].
  - apply srcml_mild. unfold foreign in A. cbn [is_srcml] in A. destruct (c_output_xml r); [discriminate A|reflexivity].
  - apply text_mild.
  - exfalso. eapply N. reflexivity.
  - apply directory_mild.
  - repeat constructor.
  - apply entries_mild.
Qed.
Lemma dispatch_mild : forall r i, fine (dispatch r i) -> forallb (foreign r) (leaves i) = true -> Forall mild_event (h_events (dispatch r i)).
Proof.
  intros r. induction i as [u s|qs|ok l F|es|q|e] using input_rect'; intros E A;
    try (apply leaf_mild; [intros; discriminate|cbn [leaves forallb] in A; apply andb_prop in A; apply A]).
  destruct (list_fine r ok l E) as (-> & G & ->). constructor; [left; reflexivity|]. rewrite leaves_list in A. clear E.
  induction F as [|i l H F IH]; [constructor|]. destruct (go_cons r i l G) as (G1 & G2 & ->). cbn [flat_map] in A. rewrite forallb_app in A. apply andb_prop in A. destruct A as [A1 A2].
  apply Forall_app. split; [apply H; assumption|apply IH; assumption].
Qed.
Lemma no_leaves : forall r i, fine (dispatch r i) -> leaves i = [] -> only_sets (h_events (dispatch r i)).
Proof.
  intros r. induction i as [u s|qs|ok l F|es|q|e] using input_rect'; intros E A; try discriminate A.
  destruct (list_fine r ok l E) as (-> & G & ->). rewrite leaves_list in A. clear E.
  assert (X : only_sets (h_events (go_list r l))).
  { induction F as [|i l H F IH]; [exists []; split; [reflexivity|constructor]|]. destruct (go_cons r i l G) as (G1 & G2 & ->). cbn [flat_map] in A. apply app_eq_nil in A. destruct A as [A1 A2].
    destruct (H G1 A1) as (p & -> & P). destruct (IH A2 G2) as (p' & -> & P'). exists (p ++ p'). rewrite map_app. split; [reflexivity|]. apply Forall_app. split; assumption. }
  destruct X as (p & -> & P). exists (DisableSolitary :: p). split; [reflexivity|]. constructor; [left; reflexivity|exact P].
Qed.
Lemma tl_app : forall {A} (x y : list A), tl (x ++ y) = match x with [] => tl y | _ => tl x ++ y end.
Proof. intros A [|a x] y; reflexivity. Qed.
Lemma dispatch_staged : forall r i, fine (dispatch r i) -> forallb (foreign r) (tl (leaves i)) = true -> staged (h_events (dispatch r i)).
Proof.
  intros r. induction i as [u s|qs|ok l F|es|q|e] using input_rect'; intros E A; try (apply srcml_staged); try (apply mild_staged, leaf_mild; [intros; discriminate|unfold foreign; cbn [is_srcml]; rewrite andb_false_r; reflexivity]).
  destruct (list_fine r ok l E) as (-> & G & ->). rewrite leaves_list in A. clear E.
  apply (sets_staged [MSet DisableSolitary]); [exists [DisableSolitary]; split; [reflexivity|repeat constructor]|].
  induction F as [|i l H F IH]; [apply mild_staged; constructor|]. destruct (go_cons r i l G) as (G1 & G2 & ->). cbn [flat_map] in A. rewrite tl_app in A.
  destruct (leaves i) as [|x xs] eqn:L.
  - apply sets_staged; [apply no_leaves; assumption|]. apply IH; assumption.
  - rewrite forallb_app in A. apply andb_prop in A. destruct A as [A1 A2]. apply staged_app; [apply H; assumption|].
    apply go_mild; [|exact G2|exact A2]. clear - G2. induction l as [|j l IH]; constructor.
    + intros A. apply dispatch_mild; [|exact A]. apply (go_cons r j l G2).
    + apply IH. apply (go_cons r j l G2).
Qed.
Lemma handle_mild : forall r ins ms w fl, handle r ins = Some (ms, w, false, fl) -> forallb (foreign r) (all_leaves ins) = true -> Forall mild_event ms.
Proof.
  intros r. induction ins as [|[s i] ins IH]; intros ms w fl H A; [injection H as <- <- <-; constructor|].
  destruct (handle_cons _ _ _ _ _ _ _ H) as (F & ms' & w' & fl' & H' & ->). unfold all_leaves in A. cbn [flat_map snd] in A. rewrite forallb_app in A. apply andb_prop in A. destruct A as [A1 A2].
  apply Forall_app. split; [apply dispatch_mild; assumption|apply (IH _ _ _ H' A2)].
Qed.
Lemma handle_staged : forall r ins ms w fl, handle r ins = Some (ms, w, false, fl) -> forallb (foreign r) (tl (all_leaves ins)) = true -> staged ms.
Proof.
  intros r. induction ins as [|[s i] ins IH]; intros ms w fl H A; [injection H as <- <- <-; apply mild_staged; constructor|].
  destruct (handle_cons _ _ _ _ _ _ _ H) as (F & ms' & w' & fl' & H' & ->). unfold all_leaves in A. cbn [flat_map snd] in A. rewrite tl_app in A.
  destruct (leaves i) as [|x xs] eqn:L.
  - apply sets_staged; [apply no_leaves; assumption|]. apply (IH _ _ _ H' A).
  - rewrite forallb_app in A. apply andb_prop in A. destruct A as [A1 A2]. apply staged_app; [apply dispatch_staged; [exact F|rewrite L; exact A1]|apply (handle_mild _ _ _ _ _ H' A2)].
Qed.

(** ** Messages *)
Lemma complains_list : forall ok l, complains (IList ok l) = negb ok || existsb complains l.
Proof. reflexivity. Qed.
Lemma entries_warned : forall e, h_result (input_entries e) <> Exits -> h_warned (input_entries e) = match e with Unopened => true | _ => false end.
Proof. intros [| | |c es] H; try reflexivity. exfalso. apply H. reflexivity. Qed.
Lemma directory_warned : forall es, h_result (input_directory es) <> Exits -> h_warned (input_directory es) = existsb (fun e => match e with Unopened => true | _ => false end) es.
Proof.
  induction es as [|e es IH]; intros H; [reflexivity|]. cbn [input_directory fold_right] in *. fold (input_directory es) in *. unfold then_do in *. pose proof (entries_warned e) as E. cbn [existsb].
  destruct (h_result (input_entries e)) eqn:Q; cbn [h_result h_warned] in *; try congruence; rewrite IH, E by (congruence || assumption); reflexivity.
Qed.
Lemma go_warned : forall r i l, fine (go_list r (i :: l)) -> h_warned (go_list r (i :: l)) = h_warned (dispatch r i) || h_warned (go_list r l).
Proof.
  intros r i l [F1 F2]. cbn [go_list] in *. cbv zeta in *. destruct (h_result (dispatch r i)) eqn:Q; unfold then_do in *; rewrite ?Q in *; try congruence. reflexivity.
Qed.
Lemma dispatch_warned : forall r i, fine (dispatch r i) -> h_warned (dispatch r i) = complains i.
Proof.
  intros r. induction i as [u s|qs|ok l F|es|q|e] using input_rect'; intros E; try reflexivity.
  - destruct s as [s|]; [|reflexivity]. cbn [dispatch] in *. unfold input_srcml in *. destruct (chosen u (si_units s)); [destruct E as [E _]; exfalso; apply E; reflexivity|]. reflexivity.
  - destruct (list_fine r ok l E) as (-> & G & _). rewrite complains_list, dispatch_list. unfold then_do. cbn [h_result h_warned orb negb]. clear E.
    induction F as [|i l H F IH]; [reflexivity|]. destruct (go_cons r i l G) as (G1 & G2 & _). rewrite (go_warned _ _ _ G), (H G1), (IH G2). reflexivity.
  - apply directory_warned, E.
  - cbn [dispatch] in *. rewrite entries_warned by apply E. destruct e; reflexivity.
Qed.
Lemma handle_warned : forall r ins ms w fl, handle r ins = Some (ms, w, false, fl) ->
  w = existsb (fun x => complains (snd x)) ins /\ fl = existsb (fun x => beqb (in_protocol (fst x)) (txt "filelist")) ins.
Proof.
  intros r. induction ins as [|[s i] ins IH]; intros ms w fl H; [injection H as <- <- <-; split; reflexivity|].
  destruct (handle_cons _ _ _ _ _ _ _ H) as (F & _). cbn [handle] in H. cbv zeta in H. destruct (h_result (dispatch r i)); try discriminate H.
  destruct (handle r ins) as [[[[ms' w'] rf'] fl']|]; [|discriminate H]. injection H as E1 E2 E3 E4. subst. destruct (IH _ _ _ eq_refl) as [-> ->]. cbn [existsb fst snd].
  rewrite (dispatch_warned _ _ F). split; reflexivity.
Qed.
Lemma closes_well : forall r ins ms w fl, handle r ins = Some (ms, w, false, fl) -> closes w false fl (scheduled ms) = ends_well ins.
Proof. intros r ins ms w fl H. unfold closes, ends_well. rewrite (handle_scheduled _ _ _ _ _ H). destruct (handle_warned _ _ _ _ _ H) as [-> ->]. reflexivity. Qed.
