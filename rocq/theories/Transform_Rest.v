(** Transformations whose result is not wanted, and stylesheets that give text. *)
From Verif Require Import Base Text_Model Text_Spec Api_Model Transform_Model Transform_Spec Transform_Trees Transform_Heap Transform_Chain Transform_Results Transform_Units Transform_Whole.
From Coq Require Import Permutation.
Local Open Scope N_scope.

Lemma all_false g l : forall s s', apply_all g true l s = Ok s' -> s_full s' <> [] -> apply_all g false l s = Ok s'.
Proof.
  induction l as [|it l IH]; intros s s' H N; [exact H|]. cbn [apply_all] in *. destruct (apply_nodes _ _ _ _) as [s1|]; [|discriminate H]. cbn [obind] in *.
  set (s2 := match s_lastdoc s1 with Some d => if Nat.eqb d 0 then s1 else State (drop_doc (Some (s_cur s1)) [d] (s_heap s1)) d (s_last s1) (s_lastdoc s1) (s_full s1) | None => s1 end) in *.
  destruct (s_full s2) eqn:E; [injection H as <-; destruct N; exact E|]. exact (IH _ _ H N).
Qed.
(** the same without a place for the result *)
Lemma unwanted g l u t : proper g -> l <> [] -> xml_parse g (uo_srcml u) = Some t -> usable g l [t] -> apply_transforms g l u false = Ok (Answer ST_OK None).
Proof.
  intros Pg Nl Et U. destruct (all_ok g l Pg Nl _ [t] U ltac:(discriminate) (start_ready g u t Pg Et) eq_refl) as (us & s & E & C & Nu & Ty & (D1 & D2 & D3) & _).
  unfold apply_transforms. destruct l as [|i l]; [contradiction|]. rewrite Et, (all_false _ _ _ _ E); [|rewrite D3; destruct us; [contradiction|discriminate]].
  cbn [obind]. cbv zeta. rewrite Ty. reflexivity.
Qed.
(** a stylesheet that gives text *)
Definition gives_text (g : engines) (s : nat) (ps : list bytes) (q : tree) (text : bytes) : Prop :=
  forall k, Forall (fun i => (i < k)%nat) (ids q) -> exists c r, xslt_run g s ps k [q] = Some (c :: r) /\ is_kind Elem c = false /\
    match r with d :: _ => is_kind Elem d = false | [] => True end /\ raw_text g (c :: r) = Some text.
Lemma string_ends g s ps text st q : gives_text g s ps q text -> ready st [q] -> s_full st = [root_id q] ->
  exists st', (forall p, apply_all g p [Item (TXslt s) ps] st = Ok st') /\ r_type (s_last st') = RESULT_STRING /\ r_string (s_last st') = text.
Proof.
  intros Gt R Fs. destruct (R false) as [D Dk Lc (e & Te & Ke) Ld Th _ El _ Fu _ _]. cbn [app] in Th. pose proof (Forall_inv Th) as Ot. pose proof (Forall_inv El) as Kt.
  destruct (set_root_ok _ _ _ _ D Dk Lc Te Ke Ot Kt) as (h1 & E1 & P1 & T1 & Dk1 & Ld1).
  assert (It : Forall (fun i => (i < next_id h1)%nat) (ids q)).
  { apply Forall_forall. intros i I. pose proof (next_fresh h1) as N1. rewrite Forall_forall in N1. apply N1.
    apply (Permutation_in _ (Permutation_sym (perm_ids _ _ P1))). cbn. apply in_app_iff. left. exact I. }
  destruct (Gt _ It) as (c & r & Er & Kc & Kr & Rt).
  assert (A : apply_item g (Item (TXslt s) ps) (next_id h1) [q] = Ok ([q], Some (c :: r), TResult RESULT_STRING (Some [root_id c]) 0 false text true)).
  { unfold apply_item. cbn [i_trans i_params]. unfold apply_xslt. rewrite Er. cbv zeta. replace (match r with d :: _ => is_kind Elem d | [] => false end) with false by (destruct r; auto).
    rewrite Kc, Rt. reflexivity. }
  eexists. split.
  - intros p. cbn [apply_all]. rewrite Fs. fold (bare st). cbn [apply_nodes]. unfold apply_node. rewrite E1. cbn [obind]. rewrite T1, A. cbn [obind s_last r_nodes s_full bare s_lastdoc s_cur s_heap].
    cbn [merge_nodes fold_left existsb app]. cbn [h_doc Nat.eqb]. reflexivity.
  - split; reflexivity.
Qed.
Lemma string_ok g l s ps u t text : proper g -> xml_parse g (uo_srcml u) = Some t -> extendable g l [t] ->
  (forall us, chain g l [t] us -> exists q, us = [q] /\ gives_text g s ps q text) ->
  apply_transforms g (l ++ [Item (TXslt s) ps]) u true = Ok (Answer ST_OK (Some (Result RESULT_STRING [] false None (Some text)))).
Proof.
  intros Pg Et U Q. destruct (more_ok g l Pg _ [t] U ltac:(discriminate) (start_ready g u t Pg Et) eq_refl) as (us & s1 & E & C & Nu & R & Fs).
  destruct (Q us C) as (q & -> & Gt). destruct (string_ends g s ps text s1 q Gt R Fs) as (s2 & E2 & Ty & St).
  unfold apply_transforms. destruct (l ++ [Item (TXslt s) ps]) as [|i l'] eqn:El; [destruct l; discriminate El|]. rewrite <- El, Et, E, E2. cbn [obind]. cbv zeta. rewrite Ty, St. reflexivity.
Qed.
(** not wanted: an error *)
Lemma string_unwanted g s ps u t text : proper g -> xml_parse g (uo_srcml u) = Some t -> gives_text g s ps t text ->
  apply_transforms g [Item (TXslt s) ps] u false = Ok (Answer ST_ERROR None).
Proof.
  intros Pg Et Gt. destruct (string_ends g s ps text _ t Gt (start_ready g u t Pg Et) eq_refl) as (s2 & E2 & Ty & St).
  unfold apply_transforms. rewrite Et, E2. cbn [obind]. cbv zeta. rewrite Ty. reflexivity.
Qed.
