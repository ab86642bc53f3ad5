(** C61: steps without calls, and look-aheads. *)
From Verif Require Import Base Parser_Model Parser_Spec Parser_Proofs Parser_Proofs2 Parser_Proofs3 Parser_View Parser_View2 Parser_View3 Parser_Guess.
From Verif Require Import Places_Model Places_Spec Places_Proofs Places_Proofs2.

Record still (s s' : ps) : Prop :=
  { st_f : map untyped (front s') = map untyped (front s);
    st_k : map untyped (skip s') = map untyped (skip s);
    st_n : serial s' = serial s;
    st_c : comments s' = comments s;
    st_o : open_ids s' = open_ids s }.
Lemma still_trans a b c : still a b -> still b c -> still a c.
Proof. intros [A B C D E] [A' B' C' D' E']. constructor; congruence. Qed.
Lemma still_modes x s : open_ids (set_modes x s) = open_ids s -> still s (set_modes x s).
Proof. intros H. constructor; try reflexivity. exact H. Qed.
Lemma still_note_if b f s : still s (note_if b f s).
Proof. destruct b; constructor; reflexivity. Qed.
Lemma still_paused x s : still s (set_paused x s).
Proof. constructor; reflexivity. Qed.
Lemma untyped_retype n ty l : map untyped (retype1 n ty l) = map untyped l.
Proof. unfold retype1. rewrite map_map. apply map_ext. intros t. destruct (o_id t =? n); reflexivity. Qed.
Lemma still_retype n ty s : still s (retype_bufs n ty s).
Proof.
  constructor; try reflexivity; unfold front, skip, retype_bufs; cbn; destruct (inskip s);
    rewrite ?map_app, ?untyped_retype; reflexivity.
Qed.

Lemma somes_app {A} (a b : list (option A)) : somes (a ++ b) = somes a ++ somes b.
Proof. unfold somes. rewrite map_app, concat_app. reflexivity. Qed.
Lemma somes_some {A} (l : list A) : somes (map Some l) = l.
Proof. induction l as [|x l IH]; [reflexivity|]. unfold somes in *. cbn. rewrite IH. reflexivity. Qed.
Definition ids_of (l : list mstate) : list nat := somes (map fst (concat (map opened l))).
Lemma ids_of_app a b : ids_of (a ++ b) = ids_of a ++ ids_of b.
Proof. unfold ids_of. rewrite map_app, concat_app, map_app, somes_app. reflexivity. Qed.
Lemma ids_of_cons t r : ids_of (t :: r) = somes (map fst (opened t)) ++ ids_of r.
Proof. unfold ids_of. cbn [map concat]. rewrite map_app, somes_app. reflexivity. Qed.
Lemma somes_unissued l : somes (map fst (unissued l)) = [].
Proof. unfold unissued. rewrite map_map. induction l as [|x l IH]; [reflexivity|]. exact IH. Qed.
Lemma ids_of_same (f : mstate -> mstate) l : (forall t, In t l -> opened (f t) = opened t) -> ids_of (map f l) = ids_of l.
Proof.
  intros H. induction l as [|t r IH]; [reflexivity|]. cbn [map]. rewrite !ids_of_cons, H by (left; reflexivity).
  rewrite IH; [reflexivity|]. intros u U. apply H. right. exact U.
Qed.
Lemma ids_of_none (f : mstate -> mstate) l : (forall t, somes (map fst (opened (f t))) = []) -> ids_of (map f l) = [].
Proof. intros H. induction l as [|t r IH]; [reflexivity|]. cbn [map]. rewrite ids_of_cons, H, IH. reflexivity. Qed.
Lemma opened_set m t : opened (state_set m t) = opened t.
Proof. reflexivity. Qed.

Lemma cut_app f : forall l a b, cut f l = Some (a, b) -> l = a ++ b.
Proof.
  induction l as [|t r IH]; intros a b H; cbn in H; [discriminate|].
  destruct (f t); [injection H as <- <-; reflexivity|].
  destruct (cut f r) as [[a' b']|]; [|discriminate]. injection H as <- <-. cbn. rewrite (IH a' b'); reflexivity.
Qed.

Lemma still_on_top f s s' : (forall t, somes (map fst (opened (f t))) = somes (map fst (opened t))) ->
  on_top f s = Ret s' -> still s s'.
Proof.
  intros H E. unfold on_top in E. destruct (modes s) as [|t r] eqn:M; [discriminate|]. injection E as <-.
  apply still_modes. change (ids_of (f t :: r) = ids_of (modes s)). rewrite M, !ids_of_cons, H. reflexivity.
Qed.

Lemma still_nop s s' : nopStreamStart s = Ret s' -> still s s'.
Proof.
  unfold nopStreamStart. destruct (paused s) as [n|]; [|intros H; injection H as <-; constructor; reflexivity].
  destruct (find_tok n (everything s)) as [p|]; [|discriminate]. destruct (rev (output s)) as [|b r]; [discriminate|].
  destruct (ttype_eq_dec _ _); intros H; injection H as <-; [|constructor; reflexivity].
  eapply still_trans; [apply (still_retype n (TE Enop))|].
  eapply still_trans; [apply (still_retype (o_id b) (TE Enop))|].
  eapply still_trans; [|apply still_paused]. apply still_note_if.
Qed.

Lemma silent_still s s' : silent s s' -> still s s'.
Proof.
  intros H. destruct H as [t r s M O|m s|m s s' H|m s s' H|e s s' H|l s s' H|m n l s s' H|m s s' H|x s|s s' H|n e s s' H|t r s B].
  - apply still_modes. change (ids_of r = ids_of (modes s)). rewrite M, ids_of_cons, O. reflexivity.
  - unfold startNewMode. destruct (modes s) as [|t r] eqn:M; apply still_modes;
      match goal with |- open_ids (set_modes ?x _) = _ => change (ids_of x = ids_of (modes s)) end; rewrite M, ids_of_cons; reflexivity.
  - eapply still_on_top; [|exact H]. reflexivity.
  - eapply still_on_top; [|exact H]. reflexivity.
  - eapply still_on_top; [|exact H]. reflexivity.
  - unfold dupMode in H. destruct (modes s) as [|t r] eqn:M; [discriminate|]. injection H as <-. apply still_modes.
    match goal with |- open_ids (set_modes ?x _) = _ => change (ids_of x = ids_of (modes s)) end. rewrite M, !ids_of_cons.
    cbn [opened state_set with_opened]. rewrite somes_unissued. reflexivity.
  - unfold insertModeAfter in H. destruct (cut _ _) as [[a b]|] eqn:C; [|discriminate]. injection H as <-.
    apply still_modes. match goal with |- open_ids (set_modes ?x _) = _ => change (ids_of x = ids_of (modes s)) end.
    rewrite (cut_app _ _ _ _ C), !ids_of_app, ids_of_cons. cbn [opened]. rewrite somes_unissued. reflexivity.
  - unfold dupDownOverMode in H. destruct (cut _ _) as [[a [|t r]]|] eqn:C; [discriminate| |discriminate]. injection H as <-.
    apply still_modes. match goal with |- open_ids (set_modes ?x _) = _ => change (ids_of x = ids_of (modes s)) end.
    rewrite (cut_app _ _ _ _ C). rewrite !ids_of_app, !ids_of_cons, !ids_of_app, !ids_of_cons.
    rewrite ids_of_none by (intros u; cbn; apply somes_unissued).
    rewrite (ids_of_same _ a) by reflexivity. cbn. reflexivity.
  - apply still_paused.
  - apply still_nop, H.
  - unfold setType in H. destruct (find_tok n (buffered s)); [|discriminate]. destruct (has_entry n s); [|discriminate].
    injection H as <-. eapply still_trans; [apply (still_retype n (TE e))|]. apply still_modes.
    match goal with |- open_ids (set_modes ?x _) = _ => change (ids_of x = ids_of (modes s)) end.
    generalize (modes s) as l. induction l as [|t r IH]; [reflexivity|]. cbn [map]. rewrite !ids_of_cons, IH. f_equal. f_equal. cbn.
    rewrite map_map. apply map_ext. intros [k x]. unfold retype_entry. destruct (entry_is n (k, x)); reflexivity.
  - constructor; try reflexivity. unfold front. cbn. rewrite B. destruct (inskip s); rewrite <- ?app_assoc; reflexivity.
Qed.
