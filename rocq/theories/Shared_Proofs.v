(** C44: a reader among others. *)
From Verif Require Import Base Text_Model Text_Proofs3 Api_Model Writer_Model Handoff_Model Handoff_Spec Handoff_Proofs3 Sax_Model Sax_Spec Sax_Proofs Sax_Proofs4 Sax_Proofs7 Stream_Spec Shared_Model Shared_Spec.

(** * Machines that behave alike *)
Definition map_pa {X Y H} (f : X -> Y) (p : parser X H) : parser Y H :=
  match p with
  | PRun x => PRun (f x) | PRootWait x h s => PRootWait (f x) h s | PRootBack x h s => PRootBack (f x) h s
  | PHead x => PHead (f x) | PHeadWait x s => PHeadWait (f x) s | PHeadBack x s => PHeadBack (f x) s
  | PTail x => PTail (f x) | PTailWait x s => PTailWait (f x) s | PTailBack x s => PTailBack (f x) s
  | PDone => PDone | PDoneNotify => PDoneNotify | PExit => PExit
  end.
Definition map_sys {X Y H B} (f : X -> Y) (s : sys X H B) : sys Y H B :=
  Sys (prog s) (cl s) (map_pa f (pa s)) (fl s) (hunit s) (units s) (results s) (fault s).
Definition alike {X Y H B} (M : machine X H B) (M' : machine Y H B) (f : X -> Y) : Prop :=
  (forall x, next M x = next M' (f x)) /\ (forall x c t, f (after M x c t) = after M' (f x) c t).

Ltac step_cases := repeat match goal with |- context [match ?x with _ => _ end] => destruct x eqn:? end; cbn; try reflexivity; try congruence.
Lemma alike_step {X Y H B} (M : machine X H B) (M' : machine Y H B) f l s : alike M M' f ->
  step M' l (map_sys f s) = option_map (map_sys f) (step M l s).
Proof.
  intros [Nx Af]. destruct s as [pr c p f0 hu us rs fa]. destruct l.
  - cbn [step]. unfold caller_step. destruct c as [| |st|st|st|st|u| | | |]; cbn [map_sys cl prog pa fl hunit units results fault]; try reflexivity.
    + destruct (is_done f0); [reflexivity|]. destruct (wait_root f0); reflexivity.
    + destruct pr as [|o r]; [reflexivity|]. cbn. destruct (is_done f0); reflexivity.
    + destruct p; cbn; destruct (is_done f0); reflexivity.
    + destruct st as [|rd u|u]; [reflexivity| |].
      * cbn. destruct (is_done f0); [reflexivity|]. destruct rd; reflexivity.
      * cbn. destruct (is_done f0); [reflexivity|]. destruct (nth_error us u) as [[h b]|]; reflexivity.
    + destruct (is_done f0); reflexivity.
    + destruct p; reflexivity.
    + destruct p; reflexivity.
  - cbn [step]. unfold parser_step. cbn [map_sys cl prog pa fl hunit units results fault].
    destruct p as [x|x h b|x h b|x|x b|x b|x|x b|x b| | |]; cbn [map_pa]; try reflexivity.
    + rewrite <- Nx. destruct (next M x) as [|h|b| |e].
      * cbn. rewrite <- Af. reflexivity.
      * destruct (read_root f0); cbn.
        -- unfold write_unit. cbn. destruct hu as [u|], (reading_unit c) as [v|]; try destruct (nth_error us u) as [old|]; cbn; destruct (header f0), (terminate f0); cbn; rewrite <- ?Af; reflexivity.
        -- unfold locked. cbn. destruct c as [| |st|st|st|st|u| | | |], (terminate f0); cbn; rewrite <- ?Af; reflexivity.
      * destruct (body f0); cbn.
        -- unfold write_unit. cbn. destruct hu as [u|], (reading_unit c) as [v|]; try destruct (nth_error us u) as [old|]; reflexivity.
        -- destruct (terminate f0); cbn; rewrite <- ?Af; reflexivity.
      * unfold locked. cbn. destruct c as [| |st|st|st|st|u| | | |]; cbn; rewrite <- ?Af; reflexivity.
      * destruct e; reflexivity.
    + cbn. destruct (terminate f0); cbn; [rewrite <- Af; reflexivity|]. unfold write_unit. cbn.
      destruct hu as [u|], (reading_unit c) as [v|]; try destruct (nth_error us u) as [old|]; cbn; destruct (header f0); cbn; rewrite <- ?Af; reflexivity.
    + unfold locked. cbn. destruct c as [| |st|st|st|st|u| | | |], (terminate f0); reflexivity.
    + cbn. destruct (terminate f0); cbn; rewrite <- ?Af; reflexivity.
    + unfold locked. cbn. destruct c as [| |st|st|st|st|u| | | |], (terminate f0); reflexivity.
    + cbn. destruct (terminate f0); cbn; rewrite <- ?Af; reflexivity.
    + unfold wake_caller. cbn. destruct c; reflexivity.
  - cbn. destruct c; reflexivity.
  - cbn. destruct p; reflexivity.
Qed.
Lemma alike_steps {X Y H B} (M : machine X H B) (M' : machine Y H B) f : alike M M' f -> forall ls s,
  steps M' ls (map_sys f s) = option_map (map_sys f) (steps M ls s).
Proof.
  intros A. induction ls as [|l ls IH]; intros s; [reflexivity|]. cbn [steps]. rewrite (alike_step M M' f l s A).
  destruct (step M l s) as [s'|]; [exact (IH s')|reflexivity].
Qed.

(** * A callback that cannot compare names behaves as for an element of another name *)
Definition nameless (n : bytes) : bytes := repeat 0%N (length n).
Definition see (p : bool * xev) : xev :=
  let (mine, e) := p in
  if mine then e
  else match e with
       | XStart t => XStart (Tag (nameless (t_name t)) (t_prefix t) (t_ns t) (t_attrs t) (t_raw t) (t_empty t))
       | XEnd n raw => XEnd (nameless n) raw
       | _ => e
       end.
Lemma nameless_not n c x : c <> 0%N -> beqb (nameless n) (c :: x) = false.
Proof. intros C. destruct (beqb (nameless n) (c :: x)) eqn:Q; [|reflexivity]. apply beqb_true in Q. destruct n; [discriminate Q|]. cbn in Q. injection Q as Q _. congruence. Qed.
Lemma nameless_unit n : beqb (nameless n) (txt "unit") = false. Proof. exact (nameless_not n 117%N (txt "nit") ltac:(discriminate)). Qed.
Lemma nameless_macro n : beqb (nameless n) (txt "macro-list") = false. Proof. exact (nameless_not n 109%N (txt "acro-list") ltac:(discriminate)). Qed.
Lemma nameless_escape n : beqb (nameless n) (txt "escape") = false. Proof. exact (nameless_not n 101%N (txt "scape") ltac:(discriminate)). Qed.
Lemma callback_see mine e s : callback_with mine e s = callback (see (mine, e)) s.
Proof.
  destruct mine; [destruct e; reflexivity|]. destruct e as [t|n raw|p raw text|raw value|raw value|raw|raw]; try reflexivity.
  - cbn [callback_with callback see t_raw t_empty]. f_equal. f_equal. destruct (sp s).
    + unfold start_root, save_root, start_unit, start_unit_pre, name_end, nameless. cbn [t_raw t_empty t_name t_prefix t_ns t_attrs]. rewrite repeat_length. reflexivity.
    + unfold first_start_element_with, first_start_element, start_element_do, start_element_with, same. cbn [andb t_raw t_empty t_name t_prefix t_ns t_attrs].
      rewrite ?nameless_unit, ?nameless_macro, ?nameless_escape. reflexivity.
    + unfold start_element_do, start_element_with, same. cbn [andb t_raw t_empty t_name t_prefix t_ns t_attrs]. rewrite ?nameless_unit, ?nameless_macro, ?nameless_escape. reflexivity.
    + unfold start_unit, start_unit_pre, name_end, nameless. cbn [t_raw t_empty t_name t_prefix t_ns t_attrs]. rewrite repeat_length. reflexivity.
    + reflexivity.
  - cbn [callback_with callback see]. unfold end_element_with, end_element, same. cbn [andb]. rewrite ?nameless_unit, ?nameless_macro, ?nameless_escape. reflexivity.
Qed.
Definition see_px (x : qx) : px :=
  match x with QAt s k ms evs e => PAt s k ms (map see evs) e | QFin e s => PFin e s end.
Lemma advance_see evs err : forall s, see_px (advance_with evs err s) = advance (map see evs) err s.
Proof.
  induction evs as [|[m e] r IH]; intros s; [reflexivity|]. cbn [advance_with advance map]. rewrite callback_see.
  destruct (run_micros (callback (see (m, e)) s) s) as [s' [[k ms]|]]; [reflexivity|apply IH].
Qed.
Lemma resume_see ms evs err s : see_px (resume_with ms evs err s) = resume ms (map see evs) err s.
Proof. unfold resume_with, resume. destruct (run_micros ms s) as [s' [[k ms']|]]; [reflexivity|apply advance_see]. Qed.
Lemma sax_alike : alike sax_with sax see_px.
Proof.
  split.
  - intros [s k ms evs e|e s]; reflexivity.
  - intros [s k ms evs e|e s] c t; [|reflexivity]. cbn [sax_with sax after after_with sax_after see_px]. destruct t; rewrite resume_see; reflexivity.
Qed.

(** * A reader whose start_document was the last one *)
Lemma combine_true : forall (ms : list bool) (evs : list xev), length ms = length evs -> Forall (eq true) ms -> map see (combine ms evs) = evs.
Proof.
  induction ms as [|m ms IH]; intros [|e evs] L F; try discriminate L; [reflexivity|]. cbn [combine map]. rewrite IH; [|injection L as L; exact L|exact (Forall_inv_tail F)].
  rewrite <- (Forall_inv F). reflexivity.
Qed.
Lemma shared_steps l i evs err ops ls s : length (mine_at i None l) = length evs -> Forall (eq true) (mine_at i None l) ->
  steps sax_with ls (open (parse_in l i evs err) ops) = Some s -> steps sax ls (open (parse evs err) ops) = Some (map_sys see_px s).
Proof.
  intros L F S. pose proof (alike_steps sax_with sax see_px sax_alike ls (open (parse_in l i evs err) ops)) as A. rewrite S in A. cbn [option_map] in A.
  rewrite <- A. f_equal. unfold map_sys, open. cbn [prog cl pa fl hunit units results fault map_pa]. unfold parse_in. rewrite advance_see, combine_true by assumption. reflexivity.
Qed.
(** When no other reader opens from its own start to its last event. *)
Lemma mine_other i : forall l o, (forall j, In (Opens j) l -> j = i) -> o = Some i -> Forall (eq true) (mine_at i o l).
Proof.
  induction l as [|[j|j] l IH]; intros o H O; [constructor| |]; cbn [mine_at].
  - apply IH; [intros k K; apply H; right; exact K|]. rewrite (H j (or_introl eq_refl)). reflexivity.
  - assert (R : Forall (eq true) (mine_at i o l)) by (apply IH; [intros k K; apply H; right; exact K|exact O]).
    destruct (j =? i); [|exact R]. constructor; [rewrite O, Nat.eqb_refl; reflexivity|exact R].
Qed.
Lemma mine_none i : forall l o, ~ In (Handles i) l -> mine_at i o l = [].
Proof.
  induction l as [|[j|j] l IH]; intros o H; [reflexivity| |]; cbn [mine_at].
  - apply IH. intros K. apply H. right. exact K.
  - destruct (Nat.eqb_spec j i) as [->|E]; [contradiction H; left; reflexivity|]. apply IH. intros K. apply H. right. exact K.
Qed.
Lemma mine_app i : forall a o b, exists o', mine_at i o (a ++ b) = mine_at i o a ++ mine_at i o' b.
Proof.
  induction a as [|[j|j] a IH]; intros o b; [exists o; reflexivity| |]; cbn [app mine_at].
  - exact (IH _ _).
  - destruct (IH o b) as [o' E]. exists o'. rewrite E. destruct (j =? i); reflexivity.
Qed.
(** [l] = before the start, the start, until the last event, after it *)
Lemma mine_alone i a b c : ~ In (Handles i) a -> ~ In (Handles i) c -> (forall j, In (Opens j) b -> j = i) ->
  Forall (eq true) (mine_at i None (a ++ Opens i :: b ++ c)).
Proof.
  intros A C H. destruct (mine_app i a None (Opens i :: b ++ c)) as [o ->]. rewrite (mine_none i a None A). cbn [app mine_at].
  destruct (mine_app i b (Some i) c) as [o' ->]. rewrite (mine_none i c o' C), app_nil_r. apply mine_other; [exact H|reflexivity].
Qed.

(** * A reader that has lost the variables *)
Definition unmarked (p : bool * xev) : Prop := match p with (true, XEnd n _) => n <> txt "unit" | _ => True end.
Definition no_end (m : micro) : Prop := match m with MEnd | MEndRoot => False | _ => True end.
Definition no_end_call (k : call) : Prop := match k with KEnd | KEndRoot => False | _ => True end.
Lemma run_no_end : forall ms s, Forall no_end ms -> match snd (run_micros ms s) with Some (k, r) => no_end_call k /\ Forall no_end r | None => True end.
Proof.
  induction ms as [|m ms IH]; intros s F; [exact I|]. pose proof (Forall_inv F) as N. apply Forall_inv_tail in F.
  destruct m; cbn [run_micros]; try contradiction N; [apply IH; exact F|split; [exact I|exact F]|split; [exact I|exact F]].
Qed.
Lemma start_unit_no_end b t : Forall no_end (start_unit b t).
Proof. destruct b; repeat constructor. Qed.
Lemma callback_no_end m e s : unmarked (m, e) -> Forall no_end (callback_with m e s).
Proof.
  intros U. destruct e as [t|n raw|[|] raw text|raw value|raw value|raw|raw]; cbn [callback_with callback].
  - apply Forall_app. split; [repeat constructor|]. apply Forall_app. split; [|repeat constructor]. destruct (sp s).
    + unfold start_root. destruct (t_empty t); repeat (apply Forall_app; split); try apply start_unit_no_end; repeat constructor.
    + unfold first_start_element_with. destruct (same m (t_name t) (txt "macro-list")); [constructor|]. cbv zeta.
      unfold reparse_root. destruct (same m (t_name t) (txt "unit")); repeat constructor.
    + repeat constructor.
    + apply start_unit_no_end.
    + constructor.
  - apply Forall_app. split; [repeat constructor|]. apply Forall_app. split; [|repeat constructor].
    unfold end_element_with. destruct (collect s && _); [constructor|]. constructor; [exact I|].
    destruct (same m n (txt "unit")) eqn:Q; [|constructor]. exfalso. destruct m; [|discriminate Q]. apply (U (proj1 (beqb_true _ _) Q)).
  - repeat constructor.
  - repeat constructor.
  - constructor; [exact I|]. destruct (on s); repeat constructor.
  - constructor; [exact I|]. destruct (on s); repeat constructor.
  - constructor; [exact I|]. destruct (on s); repeat constructor.
  - repeat constructor.
Qed.
Definition endless (x : qx) : Prop :=
  match x with QAt _ k ms evs _ => no_end_call k /\ Forall no_end ms /\ Forall unmarked evs | QFin _ _ => True end.
Lemma advance_endless evs err : Forall unmarked evs -> forall s, endless (advance_with evs err s).
Proof.
  induction evs as [|[m e] r IH]; intros F s; [exact I|]. cbn [advance_with]. pose proof (run_no_end (callback_with m e s) s (callback_no_end m e s (Forall_inv F))) as K.
  destruct (run_micros (callback_with m e s) s) as [s' [[k ms]|]]; cbn [snd] in K; [|apply IH; exact (Forall_inv_tail F)].
  split; [apply K|]. split; [apply K|exact (Forall_inv_tail F)].
Qed.
Lemma resume_endless ms evs err s : Forall no_end ms -> Forall unmarked evs -> endless (resume_with ms evs err s).
Proof.
  intros M F. unfold resume_with. pose proof (run_no_end ms s M) as K. destruct (run_micros ms s) as [s' [[k r]|]]; cbn [snd] in K; [|apply advance_endless; exact F].
  split; [apply K|]. split; [apply K|exact F].
Qed.
Lemma after_endless x c t : endless x -> endless (after sax_with x c t).
Proof.
  destruct x as [s k ms evs e|e s]; [|intros; exact I]. intros (K & M & F). cbn [sax_with after after_with]. destruct t; apply resume_endless; try assumption. constructor.
Qed.
Lemma next_endless x b : endless x -> next sax_with x <> OEnd b /\ next sax_with x <> OEndRoot.
Proof.
  destruct x as [s k ms evs e|e s]; [|intros _; split; discriminate]. intros (K & _ & _). cbn [sax_with next next_with]. destruct (bad s); [split; discriminate|].
  destruct k; try contradiction K; split; discriminate.
Qed.

(** The two threads: no unit ever gets a body. *)
Definition parser_endless (p : parser qx (list (bytes * bytes))) : Prop :=
  match p with
  | PRun x | PRootWait x _ _ | PRootBack x _ _ | PHead x | PHeadWait x _ | PHeadBack x _ | PTail x | PTailWait x _ | PTailBack x _ => endless x
  | _ => True
  end.
Definition bodiless (s : sys qx (list (bytes * bytes)) ubody) : Prop :=
  parser_endless (pa s) /\ Forall (fun u => snd u = None) (units s) /\ (forall h b, ~ In (RUnit h (Some b)) (results s)).
Lemma put_bodiless (u : nat) (f : option (list (bytes * bytes)) * option ubody -> option (list (bytes * bytes)) * option ubody) us old :
  Forall (fun u => snd u = None) us -> nth_error us u = Some old -> snd (f old) = None -> Forall (fun u => snd u = None) (put u (f old) us).
Proof.
  intros F E S. unfold put. apply Forall_app. split; [apply Forall_forall; intros x X; rewrite Forall_forall in F; apply F; rewrite <- (firstn_skipn u us); apply in_or_app; left; exact X|].
  constructor; [exact S|]. apply Forall_forall; intros x X. rewrite Forall_forall in F. apply F. rewrite <- (firstn_skipn (Datatypes.S u) us). apply in_or_app. right. exact X.
Qed.
Lemma write_bodiless (h : list (bytes * bytes)) (s : sys qx (list (bytes * bytes)) ubody) : Forall (fun u => snd u = None) (units s) -> Forall (fun u => snd u = None) (units (write_unit (fun u => (Some h, snd u)) s)).
Proof.
  intros F. unfold write_unit. destruct (hunit s) as [u|]; [|exact F]. destruct (reading_unit (cl s)) as [v|]; [|exact F].
  destruct (nth_error (units s) u) as [old|] eqn:E; [|exact F]. apply (put_bodiless u (fun u => (Some h, snd u)) (units s) old F E). cbn [snd]. rewrite Forall_forall in F. exact (F old (nth_error_In _ _ E)).
Qed.
Lemma write_other h (s : sys qx (list (bytes * bytes)) ubody) : results (write_unit (fun u => (Some h, snd u)) s) = results s /\ pa (write_unit (fun u => (Some h, snd u)) s) = pa s /\ fl (write_unit (fun u => (Some h, snd u)) s) = fl s.
Proof. unfold write_unit. destruct (hunit s) as [u|]; [|split; [|split]; reflexivity]. destruct (reading_unit (cl s)) as [v|]; [|split; [|split]; reflexivity]. destruct (nth_error (units s) u); split; [|split| |split]; reflexivity. Qed.
Lemma wake_parser_endless (s : sys qx (list (bytes * bytes)) ubody) : parser_endless (pa s) -> parser_endless (pa (wake_parser s)).
Proof. intros P. unfold wake_parser. destruct (pa s) eqn:E; cbn; rewrite ?E; exact P. Qed.
Lemma wake_parser_other (s : sys qx (list (bytes * bytes)) ubody) : units (wake_parser s) = units s /\ results (wake_parser s) = results s /\ fl (wake_parser s) = fl s.
Proof. unfold wake_parser. destruct (pa s); split; [|split| |split| |split| |split| |split| |split| |split| |split| |split| |split| |split| |split]; reflexivity. Qed.
Lemma wake_caller_other (s : sys qx (list (bytes * bytes)) ubody) : units (wake_caller s) = units s /\ results (wake_caller s) = results s /\ pa (wake_caller s) = pa s.
Proof. unfold wake_caller. destruct (cl s); split; [|split| |split| |split| |split| |split| |split| |split| |split| |split| |split| |split]; reflexivity. Qed.
Lemma not_snoc (r : result (list (bytes * bytes)) ubody) rs : (forall h b, ~ In (RUnit h (Some b)) rs) -> (forall h b, r <> RUnit h (Some b)) -> forall h b, ~ In (RUnit h (Some b)) (rs ++ [r]).
Proof. intros A B h b K. apply in_app_or in K as [K|[K|[]]]; [exact (A h b K)|exact (B h b K)]. Qed.
Lemma nothing_not rd h b : @nothing (list (bytes * bytes)) ubody rd <> RUnit h (Some b).
Proof. destruct rd; discriminate. Qed.

Ltac refl3 := split; [assumption|split; assumption].
Lemma caller_bodiless s s' : bodiless s -> caller_step s = Some s' -> bodiless s'.
Proof.
  destruct s as [pr c p f hu us rs fa]. intros (P & U & R). cbn [pa units results] in P, U, R. unfold caller_step. cbn [cl prog pa fl hunit units results fault].
  destruct c as [| |st|st|st|st|u| | | |]; try discriminate.
  - destruct (is_done f); [intros [= <-]; refl3|]. destruct (wait_root f); intros [= <-]; refl3.
  - destruct pr as [|o r]; [intros [= <-]; refl3|]. cbn. destruct (is_done f); intros [= <-].
    + split; [exact P|]. split; [apply Forall_app; split; [exact U|repeat constructor]|]. cbn. apply not_snoc; [exact R|apply nothing_not].
    + split; [exact P|]. split; [apply Forall_app; split; [exact U|repeat constructor]|exact R].
  - set (s0 := Sys _ _ _ _ _ _ _ _). pose proof (wake_parser_endless s0 P) as P'. destruct (wake_parser_other s0) as (U' & R' & _).
    assert (B : bodiless (wake_parser s0)) by (split; [exact P'|split; [rewrite U'; exact U|rewrite R'; exact R]]).
    destruct (is_done (fl (wake_parser s0))); intros [= <-]; exact B.
  - intros [= <-]. refl3.
  - destruct st as [|rd u|u]; [intros [= <-]; refl3| |].
    + cbn. destruct (is_done f); [intros [= <-]; split; [exact P|split; [exact U|cbn; apply not_snoc; [exact R|apply nothing_not]]]|].
      destruct rd; intros [= <-]; [refl3|]. split; [exact P|]. split; [exact U|]. cbn. apply not_snoc; [exact R|discriminate].
    + cbn. destruct (is_done f); [intros [= <-]; split; [exact P|split; [exact U|cbn; apply not_snoc; [exact R|discriminate]]]|].
      destruct (nth_error us u) as [[h b]|] eqn:E; [|discriminate]. intros [= <-]. split; [exact P|]. split; [exact U|]. cbn. apply not_snoc; [exact R|].
      intros h' b' K. injection K as _ K. rewrite Forall_forall in U. pose proof (U _ (nth_error_In _ _ E)) as V. cbn in V. congruence.
  - destruct (is_done f); intros [= <-]; [|refl3]. split; [exact P|]. split; [exact U|]. cbn. apply not_snoc; [exact R|discriminate].
  - intros [= <-]. refl3.
  - intros [= <-]. set (s0 := Sys _ _ _ _ _ _ _ _). pose proof (wake_parser_endless s0 P) as P'. destruct (wake_parser_other s0) as (U' & R' & _).
    split; [exact P'|split; [cbn; rewrite U'; exact U|cbn; rewrite R'; exact R]].
  - destruct p; try discriminate. intros [= <-]. refl3.
Qed.
Lemma stop_same b (s : sys qx (list (bytes * bytes)) ubody) : units (stop_if b s) = units s /\ results (stop_if b s) = results s.
Proof. destruct b; split; reflexivity. Qed.
Lemma parser_bodiless s s' : bodiless s -> parser_step sax_with s = Some s' -> bodiless s'.
Proof.
  intros (P & U & R). unfold parser_step. destruct (pa s) as [x|x h b|x h b|x|x b|x b|x|x b|x b| | |] eqn:EP; try discriminate; cbn [parser_endless] in P.
  - destruct (next sax_with x) as [|h|b| |e] eqn:Nx.
    + intros [= <-]. split; [apply after_endless; exact P|split; assumption].
    + destruct (read_root (fl s)).
      * destruct (write_other h s) as (W1 & W2 & W3). destruct (header (fl (write_unit (fun u => (Some h, snd u)) s))); intros [= <-].
        -- split; [exact P|]. split; [apply write_bodiless; exact U|cbn; rewrite W1; exact R].
        -- split; [apply after_endless; exact P|]. cbn [units results set_pa]. destruct (stop_same (terminate (fl s)) (write_unit (fun u => (Some h, snd u)) s)) as (E1 & E2).
           split; [rewrite E1; apply write_bodiless; exact U|rewrite E2, W1; exact R].
      * destruct (locked s); [discriminate|]. intros [= <-]. split; [exact P|]. cbn [units results set_pa].
        match goal with |- context [wake_caller ?X] => destruct (wake_caller_other X) as (-> & -> & _) end. cbn [units results set_fl].
        destruct (stop_same (terminate (fl s)) s) as (-> & ->). split; assumption.
    + exfalso. exact (proj1 (next_endless x b P) Nx).
    + exfalso. exact (proj2 (next_endless x (UBody [] [] 0 (0, 0) (0, 0)) P) Nx).
    + intros [= <-]. split; [destruct e; exact I|split; assumption].
  - destruct (terminate (fl s)).
    + intros [= <-]. split; [apply after_endless; exact P|split; assumption].
    + destruct (write_other h (set_fl (set_read_root (fl s)) s)) as (W1 & W2 & W3).
      match goal with |- context [header ?X] => destruct (header X) end; intros [= <-].
      * split; [exact P|]. split; [apply write_bodiless; exact U|cbn [results set_pa]; rewrite W1; exact R].
      * split; [apply after_endless; exact P|]. split; [apply write_bodiless; exact U|cbn [results set_pa]; rewrite W1; exact R].
  - destruct (locked s); [discriminate|]. intros [= <-]. split; [exact P|]. cbn [units results set_pa].
    match goal with |- context [wake_caller ?X] => destruct (wake_caller_other X) as (-> & -> & _) end. destruct (stop_same (terminate (fl s)) s) as (-> & ->). split; assumption.
  - intros [= <-]. split; [apply after_endless; exact P|]. cbn [units results set_pa]. destruct (stop_same (terminate (fl s)) s) as (-> & ->). split; assumption.
  - destruct (locked s); [discriminate|]. intros [= <-]. split; [exact P|]. cbn [units results set_pa].
    match goal with |- context [wake_caller ?X] => destruct (wake_caller_other X) as (-> & -> & _) end. destruct (stop_same (terminate (fl s)) s) as (-> & ->). split; assumption.
  - intros [= <-]. split; [apply after_endless; exact P|]. cbn [units results set_pa]. destruct (stop_same (terminate (fl s)) s) as (-> & ->). split; assumption.
  - intros [= <-]. split; [exact I|split; assumption].
  - intros [= <-]. split; [exact I|]. cbn [units results set_pa]. destruct (wake_caller_other s) as (-> & -> & _). split; assumption.
Qed.
Lemma step_bodiless l s s' : bodiless s -> step sax_with l s = Some s' -> bodiless s'.
Proof.
  destruct l; cbn [step].
  - apply caller_bodiless.
  - apply parser_bodiless.
  - intros B. destruct (cl s); try discriminate. intros [= <-]. exact B.
  - intros (P & U & R). destruct (wake_parser_other s) as (E1 & E2 & _). pose proof (wake_parser_endless s P) as P'.
    assert (B : bodiless (wake_parser s)) by (split; [exact P'|split; [rewrite E1; exact U|rewrite E2; exact R]]).
    destruct (pa s); try discriminate; intros [= <-]; exact B.
Qed.
Lemma steps_bodiless : forall ls s s', bodiless s -> steps sax_with ls s = Some s' -> bodiless s'.
Proof.
  induction ls as [|l ls IH]; intros s s' B; cbn [steps]; [intros [= <-]; exact B|]. destruct (step sax_with l s) as [s1|] eqn:E; [|discriminate].
  apply IH. exact (step_bodiless l s s1 B E).
Qed.
Lemma lost l i evs err ops ls s :
  (forall n raw m, nth_error evs n = Some (XEnd (txt "unit") raw) -> nth_error (mine_at i None l) n = Some m -> m = false) ->
  steps sax_with ls (open (parse_in l i evs err) ops) = Some s -> forall h b, ~ In (RUnit h (Some b)) (results s).
Proof.
  intros L S. refine (proj2 (proj2 (steps_bodiless ls _ s _ S))). split; [|split; [constructor|intros h b []]]. cbn [pa open parser_endless]. apply advance_endless.
  apply Forall_forall. intros [m e] K. apply In_nth_error in K as [n K].
  assert (G : forall (ms : list bool) (es : list xev) n m e, nth_error (combine ms es) n = Some (m, e) -> nth_error ms n = Some m /\ nth_error es n = Some e).
  { clear. induction ms as [|m0 ms IH]; intros [|e0 es] n m e H; try (destruct n; discriminate H). destruct n as [|n]; [injection H as -> ->; split; reflexivity|]. exact (IH es n m e H). }
  destruct (G _ _ _ _ _ K) as [K1 K2]. destruct m; [|exact I]. destruct e as [t|nm raw|p raw text|raw value|raw value|raw|raw]; try exact I. cbn [unmarked].
  intros ->. discriminate (L n raw true K2 K1).
Qed.

(** * In terms of Shared_Spec.v *)

Definition handles (i : nat) (a : act) : bool := match a with Handles j => j =? i | Opens _ => false end.
Lemma mine_length i : forall l o, length (mine_at i o l) = length (filter (handles i) l).
Proof. induction l as [|[j|j] l IH]; intros o; cbn [mine_at filter handles]; [reflexivity|apply IH|]. destruct (j =? i); cbn [length]; rewrite IH; reflexivity. Qed.
Lemma mine_lost i : forall b o, o <> Some i -> ~ In (Opens i) b -> Forall (eq false) (mine_at i o b).
Proof.
  induction b as [|[j|j] b IH]; intros o O H; [constructor| |]; cbn [mine_at].
  - apply IH; [intros K; injection K as ->; apply H; left; reflexivity|intros K; apply H; right; exact K].
  - assert (R : Forall (eq false) (mine_at i o b)) by (apply IH; [exact O|intros K; apply H; right; exact K]).
    destruct (j =? i); [|exact R]. constructor; [|exact R]. destruct o as [o|]; [|reflexivity]. destruct (Nat.eqb_spec o i) as [->|]; [contradiction O; reflexivity|reflexivity].
Qed.
Lemma lost_false l i n m : lost_at l i n -> nth_error (mine_at i None l) n = Some m -> m = false.
Proof.
  intros (a & b & j & -> & J & B & L) E. destruct (mine_app i a None (Opens j :: b)) as [o Q]. rewrite Q in E. cbn [mine_at] in E.
  rewrite nth_error_app2 in E by (rewrite mine_length; exact L).
  assert (F : Forall (eq false) (mine_at i (Some j) b)) by (apply mine_lost; [intros K; injection K as ->; apply J; reflexivity|exact B]).
  rewrite Forall_forall in F. symmetry. exact (F m (nth_error_In _ _ E)).
Qed.
Lemma lost_reader l i evs err ops ls s :
  (forall n raw, nth_error evs n = Some (XEnd (txt "unit") raw) -> lost_at l i n) ->
  steps sax_with ls (open (parse_in l i evs err) ops) = Some s -> forall h b, ~ In (RUnit h (Some b)) (results s).
Proof. intros L. apply lost. intros n raw m E. apply lost_false, (L n raw E). Qed.
Lemma open_steps l i evs err ops ls s : last_to_open l i evs ->
  steps sax_with ls (open (parse_in l i evs err) ops) = Some s -> exists s', steps sax ls (open (parse evs err) ops) = Some s' /\ results s' = results s /\ cl s' = cl s /\ fault s' = fault s.
Proof.
  intros (L & a & b & c & -> & A & C & H) S. exists (map_sys see_px s). split; [|repeat split]. apply (shared_steps (a ++ Opens i :: b ++ c) i evs err ops ls s); [|apply mine_alone; assumption|exact S].
  rewrite mine_length. exact L.
Qed.
Lemma archive_alone l i d err ops ls s : last_to_open l i (archive_events d) -> archive_ok d -> whole d = true -> calm ls ->
  steps sax_with ls (open (parse_in l i (archive_events d) err) ops) = Some s ->
  fault s = false /\ (cl s = CGone -> exists bs, Forall2 (body_is (root_namespaces (a_root d))) (map fst (a_units d)) bs /\ results s = reads (with_bodies (map fst (a_units d)) bs) ops).
Proof.
  intros O A W C S. destruct (open_steps _ _ _ _ _ _ _ O S) as (s' & S' & <- & <- & <-). split.
  - apply (archive_delivered d err ops ls s' A); [rewrite W; discriminate|exact C|exact S'].
  - exact (archive_read d err ops ls s' A W C S').
Qed.
Lemma step_alive {X Y H B} (M : machine X H B) (M' : machine Y H B) f s : alike M M' f ->
  (exists l s', (l = Caller \/ l = Parser) /\ step M' l (map_sys f s) = Some s') -> exists l s', (l = Caller \/ l = Parser) /\ step M l s = Some s'.
Proof. intros A (l & s' & L & E). rewrite (alike_step M M' f l s A) in E. destruct (step M l s) as [t|] eqn:Q; [|discriminate E]. exists l, t. split; [exact L|exact Q]. Qed.
Lemma archive_alone_ends l i d err ops ls s : last_to_open l i (archive_events d) -> archive_ok d -> whole d = true -> calm ls ->
  steps sax_with ls (open (parse_in l i (archive_events d) err) ops) = Some s ->
  cl s = CGone \/ exists x s', (x = Caller \/ x = Parser) /\ step sax_with x s = Some s'.
Proof.
  intros (L & a & b & c & -> & A' & C' & H) A W C S. pose proof (shared_steps (a ++ Opens i :: b ++ c) i _ err ops ls s ltac:(rewrite mine_length; exact L) (mine_alone i a b c A' C' H) S) as S'.
  destruct (archive_not_stuck d err ops ls _ A W C S') as [G|G]; [left; exact G|right]. exact (step_alive sax_with sax see_px s sax_alike G).
Qed.
Lemma solo_alone l i d err ops ls s : last_to_open l i (solo_events d) -> solo_ok d -> calm ls ->
  steps sax_with ls (open (parse_in l i (solo_events d) err) ops) = Some s ->
  (cl s = CGone -> exists b, solo_is d b /\ results s = reads [(t_attrs (s_tag d), Some b)] ops) /\
  (cl s = CGone \/ exists x s', (x = Caller \/ x = Parser) /\ step sax_with x s = Some s').
Proof.
  intros (L & a & b & c & -> & A' & C' & H) A C S. pose proof (shared_steps (a ++ Opens i :: b ++ c) i _ err ops ls s ltac:(rewrite mine_length; exact L) (mine_alone i a b c A' C' H) S) as S'. split.
  - intros G. exact (solo_read d err ops ls _ A C S' G).
  - destruct (proj1 (solo_not_stuck d err ops ls _ A C S')) as [G|G]; [left; exact G|right]. exact (step_alive sax_with sax see_px s sax_alike G).
Qed.
