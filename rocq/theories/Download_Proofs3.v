(** Downloads: every run ends (C63). *)
From Verif Require Import Base Download_Model Download_Spec Download_Proofs.

Definition work (w : worker) : nat :=
  match w with
  | WPerform l _ => 4 * length l + 4 | WGo _ l _ => 4 * length l + 7 | WWrite _ l _ => 4 * length l + 6
  | WErrors _ => 3 | WTell _ => 2 | WClose => 1 | WEnd => 0
  end.
Definition burden (t : thread) : nat := work (pc t) + match pipe t with [] => 0 | _ => 1 end.
Definition total (l : list thread) : nat := list_sum (map burden l).
Definition ahead (l : list download) : nat := list_sum (map (fun d => 4 * length (blocks d) + 9) l).
Definition duty (s : sys) : nat :=
  match cl s with
  | MNext k => ahead (skipn k (urls s)) + 1 | MEnter k => ahead (skipn (S k) (urls s)) + 5 | MWait k => ahead (skipn (S k) (urls s)) + 4
  | MBack k => ahead (skipn (S k) (urls s)) + 3 | MRead k => ahead (skipn (S k) (urls s)) + 2 | MEnd => 0
  end.
Definition left (s : sys) : nat := duty s + total (threads s).
(** the greatest number of steps *)
Definition bound (l : list download) : nat := ahead l + 1.

Lemma total_app : forall a b, total (a ++ b) = total a + total b.
Proof. intros. unfold total. rewrite map_app, list_sum_app. reflexivity. Qed.
Lemma total_cons : forall x l, total (x :: l) = burden x + total l.
Proof. reflexivity. Qed.
Lemma total_put : forall i t s t0, nth_error (threads s) i = Some t0 -> total (threads (put i t s)) + burden t0 = total (threads s) + burden t.
Proof.
  intros i t s t0 H. unfold put. cbn [threads set_threads]. generalize dependent i. generalize (threads s) as l. induction l as [|x l IH]; intros [|i] H; try discriminate H.
  - injection H as ->. cbn [firstn skipn app]. rewrite !total_cons. lia.
  - cbn [nth_error] in H. specialize (IH i H). cbn [firstn skipn app] in *. rewrite !total_cons. lia.
Qed.
Lemma ahead_nth : forall l k d, nth_error l k = Some d -> ahead (skipn k l) = 4 * length (blocks d) + 9 + ahead (skipn (S k) l).
Proof.
  induction l as [|x l IH]; intros [|k] d H; try discriminate H; [injection H as ->; reflexivity|]. cbn [nth_error skipn] in *. exact (IH k d H).
Qed.
Lemma pipe_weight : forall p w g, burden (Thread w p g) <= work w + 1 /\ work w <= burden (Thread w p g).
Proof. intros p w g. unfold burden. cbn. destruct p; lia. Qed.
Lemma less_left : forall l s s', step l s = Some s' -> left s' < left s.
Proof.
  intros l s s' H. unfold left. destruct l as [|i| |]; cbn [step] in H.
  - unfold main_step, duty in *. destruct (cl s) as [k|k|k|k|k|] eqn:C.
    + destruct (nth_error (urls s) k) as [d|] eqn:U; injection H as <-; cbn [set_main set_threads cl threads urls]; [|lia]. rewrite total_app, (ahead_nth _ _ _ U). unfold total at 2. cbn. lia.
    + injection H as <-. cbn [set_main cl threads urls]. lia.
    + discriminate H.
    + injection H as <-. cbn [cl threads urls]. destruct (go s); lia.
    + destruct (nth_error (threads s) k) as [[w p g]|] eqn:E; [|discriminate H]. destruct p as [|c p].
      * destruct w; try discriminate H. injection H as <-. cbn [set_main cl threads urls]. lia.
      * assert (H' : Some (put k (Thread w [] (g ++ c :: p)) s) = Some s') by (destruct w; exact H). injection H' as <-. change (cl (put k (Thread w [] (g ++ c :: p)) s)) with (cl s). rewrite C.
        change (urls (put k (Thread w [] (g ++ c :: p)) s)) with (urls s). pose proof (total_put k (Thread w [] (g ++ c :: p)) s _ E) as T. unfold burden in T. cbn [pc pipe] in T. lia.
    + discriminate H.
  - unfold worker_step in H. destruct (nth_error (threads s) i) as [[w p g]|] eqn:E; [|discriminate H].
    assert (X : forall w' p' s1, threads s1 = threads (put i (Thread w' p' g) s) -> duty s1 <= duty s -> burden (Thread w' p' g) < burden (Thread w p g) -> duty s1 + total (threads s1) < duty s + total (threads s)).
    { intros w' p' s1 T D L. rewrite T. pose proof (total_put i (Thread w' p' g) s _ E). lia. }
    assert (D : forall b s1, cl s1 = cl s -> urls s1 = urls s -> duty (goCurl b s1) <= duty s).
    { intros b s1 C1 U1. unfold duty, goCurl. cbn [cl urls]. rewrite C1, U1. destruct (cl s); lia. }
    destruct w as [[|b l] ok|b l ok|b l ok|e|e| |].
    + injection H as <-. eapply X; [reflexivity|apply Nat.le_refl|]. unfold burden; cbn; destruct p; lia.
    + destruct (code b =? 200)%N; injection H as <-; (eapply X; [reflexivity|apply Nat.le_refl|]); [|destruct (returned b =? length (data b))]; unfold burden; cbn; destruct p; lia.
    + injection H as <-. eapply X; [reflexivity|apply D; reflexivity|]. unfold burden; cbn; destruct p; lia.
    + destruct (Nat.ltb (length p) (room s)); [|discriminate H]. injection H as <-. eapply X; [reflexivity|apply Nat.le_refl|]. set (q := p ++ _). set (w' := if _ : bool then _ else _).
      assert (W : work w' + 1 < 4 * length l + 6) by (unfold w'; destruct (_ =? _)%nat; cbn; lia). pose proof (pipe_weight q w' g). pose proof (pipe_weight p (WWrite b l ok) g) as [_ P]. cbn [work] in P. lia.
    + injection H as <-. eapply X; [reflexivity|apply Nat.le_refl|]. unfold burden; cbn; destruct p; lia.
    + injection H as <-. eapply X; [reflexivity|apply D; reflexivity|]. unfold burden; cbn; destruct p; lia.
    + injection H as <-. eapply X; [reflexivity|apply Nat.le_refl|]. unfold burden; cbn; destruct p; lia.
    + discriminate H.
  - unfold duty. destruct (cl s) as [k|k|k|k|k|] eqn:C; try discriminate H. injection H as <-. cbn [set_main cl threads urls]. lia.
  - unfold duty. destruct (cl s) as [k|k|k|k|k|] eqn:C; try discriminate H. injection H as <-. cbn [set_main cl threads urls]. lia.
Qed.
Lemma run_bound : forall us r ls s, reached us r ls s -> length ls <= list_sum (map (fun d => 4 * length (blocks d) + 9) us) + 1.
Proof.
  intros us r ls s H. assert (X : forall ls s s', steps ls s = Some s' -> length ls + left s' <= left s).
  { induction ls0 as [|l ls0 IH]; intros s1 s2 S1; [injection S1 as <-; apply Nat.le_refl|]. cbn [steps length] in *. destruct (step l s1) as [s3|] eqn:E; [|discriminate S1]. pose proof (less_left _ _ _ E). specialize (IH _ _ S1). lia. }
  specialize (X ls _ s H). unfold left at 2 in X. change (duty (start us r)) with (ahead us + 1) in X. change (total (threads (start us r))) with 0 in X. unfold ahead in X. lia.
Qed.
