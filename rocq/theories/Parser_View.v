(** An abstract machine for the tags of the stream: the parser's steps, as seen by someone who only
    looks at the tokens and at which start tags are still open. *)
From Verif Require Import Base Parser_Model Parser_Spec Parser_Proofs Parser_Proofs2 Parser_Proofs3.
From Coq Require Import Permutation.

(** What was set aside on entering preprocessor handling. *)
Record outer := Outer { oz : list otok; oy : list otok; ol : list nat; on : nat }.

Record view := View
  { vr : option outer;            (* preprocessor handling: what was set aside *)
    vf : list otok; vb : list otok;  (* output and skipped tokens *)
    ve : list (nat * etype);      (* open elements whose start tag was issued, innermost first *)
    vc : list nat;                (* open comments whose start tag was issued *)
    vs : nat }.

Definition rest v := match vr v with None => [] | Some r => oz r ++ oy r end.
Definition all v := rest v ++ vf v ++ vb v.
Definition live v := map fst (ve v) ++ vc v.
Definition ids (l : list otok) := map o_id l.
Definition ended (l : list otok) := somes (map o_of l).

Definition neutral (t : otok) : Prop := (o_cat t = Ktext \/ o_cat t = Kempty) /\ o_of t = None.
(** Tokens that print as what they are. *)
Definition kind_ok (t : otok) : Prop :=
  match o_type t, o_cat t with
  | TL Lcontrol, Kempty => True
  | TL Lcontrol, _ => False
  | TL _, Ktext => True
  | TEof, Ktext => True
  | TE _, Ktext => False
  | TE _, _ => o_text t = []
  | _, _ => False
  end.

Definition front v u := View (vr v) (vf v ++ [u]) (vb v) (ve v) (vc v) (S (vs v)).
Definition back v u := View (vr v) (vf v) (vb v ++ [u]) (ve v) (vc v) (S (vs v)).
Definition with_e v e := View (vr v) (vf v) (vb v) e (vc v) (vs v).
Definition with_c v c := View (vr v) (vf v) (vb v) (ve v) c (vs v).
Definition quiet_if v : option fault :=
  match vc v with [] => if stray (vb v) then Some Fcomment else None | _ => Some Fcomment end.

Definition retype_outer n ty r := Outer (retype1 n ty (oz r)) (retype1 n ty (oy r)) (ol r) (on r).
Definition retype_view n ty v :=
  View (option_map (retype_outer n ty) (vr v)) (retype1 n ty (vf v)) (retype1 n ty (vb v))
    (ve v) (vc v) (vs v).

(** Equal up to types. *)
Definition untyped (t : otok) := (o_id t, o_cat t, o_text t, o_of t).
Definition alike (l l' : list otok) := map untyped l = map untyped l'.

Definition start_tok v e := OTok (vs v) (TE e) Kstart [] None.
Definition end_tok v e w := OTok (vs v) (TE e) Kend [] w.

Inductive vstep : option fault -> view -> view -> Prop :=
| v_flush v : vstep None v (View (vr v) (vf v ++ vb v) [] (ve v) (vc v) (vs v))
| v_front v u : neutral u -> o_id u = vs v -> kind_ok u -> o_type u <> TEof -> vstep None v (front v u)
| v_back v u : neutral u -> o_id u = vs v -> kind_ok u -> o_type u <> TEof -> vstep None v (back v u)
| v_bad_back v u : neutral u -> o_id u = vs v -> vstep (Some Fmacro) v (back v u)
| v_eof v u : o_type u = TEof -> neutral u -> kind_ok u -> o_id u = vs v -> vb v = [] ->
    vr v = None -> ve v = [] -> vc v = [] -> vstep None v (front v u)
| v_bad_eof v u : o_type u = TEof -> neutral u -> kind_ok u -> o_id u = vs v -> vstep (Some Feof) v (front v u)
| v_open v e : vstep (quiet_if v) v (with_e (front v (start_tok v e)) ((vs v, e) :: ve v))
| v_close v n e r : ve v = (n, e) :: r ->
    vstep (quiet_if v) v (with_e (front v (end_tok v e (Some n))) r)
| v_close_none v e : vstep (Some Funopened) v (front v (end_tok v e None))
| v_drop v n e r : ve v = (n, e) :: r -> vstep (Some Funclosed) v (with_e v r)
| v_pair v e : vstep (quiet_if v) v
    (front (front v (start_tok v e)) (OTok (S (vs v)) (TE e) Kend [] (Some (vs v))))
| v_copen v c : vstep None v (with_c (back v (start_tok v (Ecomment c))) (vs v :: vc v))
| v_cclose v n c r : vc v = n :: r ->
    vstep None v (with_c (back v (end_tok v (Ecomment c) (Some n))) r)
| v_cclose_none v c : vstep (Some Funopened) v (back v (end_tok v (Ecomment c) None))
| v_cdrop v n r : vc v = n :: r -> vstep (Some Funclosed) v (with_c v r)
| v_type v n e : In n (map fst (ve v)) ->
    vstep None v (with_e (retype_view n (TE e) v)
                   (map (fun x => if fst x =? n then (fst x, e) else x) (ve v)))
| v_nop v t u : In t (all v) -> In u (all v) -> o_cat t = Kstart -> o_cat u = Kend ->
    o_of u = Some (o_id t) ->
    vstep None v (retype_view (o_id u) (TE Enop) (retype_view (o_id t) (TE Enop) v))
| v_bad_nop v v' : alike (rest v) (rest v') -> alike (vf v) (vf v') -> alike (vb v) (vb v') ->
    match vr v, vr v' with
    | None, None => True
    | Some r, Some r' => ol r = ol r' /\ on r = on r' /\ alike (oz r) (oz r')
    | _, _ => False
    end ->
    ve v' = ve v -> vc v' = vc v -> vs v' = vs v -> vstep (Some Fnop) v v'
| v_enter v : vr v = None -> vc v = [] ->
    vstep None v (View (Some (Outer (vf v) (vb v) (map fst (ve v)) (vs v))) [] [] (ve v) (vc v) (vs v))
| v_bad_enter v f : vr v = None -> f = Fouter \/ f = Fmacro ->
    vstep (Some f) v (View (Some (Outer (vf v) (vb v) (map fst (ve v)) (vs v))) [] [] (ve v) (vc v) (vs v))
| v_leave v r f : vr v = Some r ->
    (f = Some Fleft
     \/ ((forall n, In n (live v) -> n < on r) /\
         (f = Some Fouter \/ (f = None /\ forall n, In n (ol r) -> In n (map fst (ve v)))))) ->
    vstep f v (View None (oz r) (oy r ++ vf v ++ vb v) (ve v) (vc v) (vs v)).

(** Steps whose faults satisfy [P]. *)
Inductive vrun (P : fault -> Prop) : view -> view -> Prop :=
| vr_refl v : vrun P v v
| vr_step v1 v2 v3 f : vrun P v1 v2 -> vstep f v2 v3 -> (forall x, f = Some x -> P x) -> vrun P v1 v3.

Lemma vrun_trans P v1 v2 v3 : vrun P v1 v2 -> vrun P v2 v3 -> vrun P v1 v3.
Proof. intros A B. induction B; [exact A|]. eapply vr_step; [apply IHB, A|eassumption|assumption]. Qed.
Lemma vrun_mono (P Q : fault -> Prop) v v' : (forall f, P f -> Q f) -> vrun P v v' -> vrun Q v v'.
Proof. intros I R. induction R; [apply vr_refl|]. eapply vr_step; [eassumption|eassumption|auto]. Qed.

(** * What always holds *)
Record U (v : view) : Prop :=
  { u_ids : NoDup (ids (all v));
    u_lt : forall i, In i (ids (all v)) -> i < vs v;
    u_live : NoDup (live v);
    u_start : forall n, In n (live v) -> exists t, In t (all v) /\ o_id t = n /\ o_cat t = Kstart /\ o_text t = [];
    u_open : forall n, In n (live v) -> ~ In n (ended (all v));
    u_elt : forall n, In n (ended (all v)) -> n < vs v;
    u_of : forall t, In t (all v) -> o_of t <> None -> o_cat t = Kend }.

Lemma somes_app {A} (a b : list (option A)) : somes (a ++ b) = somes a ++ somes b.
Proof. unfold somes. rewrite map_app, concat_app. reflexivity. Qed.
Lemma in_somes {A} (n : A) l : In n (somes l) <-> In (Some n) l.
Proof.
  induction l as [|[x|] l IH]; cbn; [tauto| |]; rewrite <- ?IH; unfold somes in *; cbn.
  - split; intros [H|H]; auto; [left; congruence|]. left. congruence.
  - split; [auto|]. intros [H|H]; [discriminate H|exact H].
Qed.
Lemma in_ended n l : In n (ended l) <-> exists t, In t l /\ o_of t = Some n.
Proof.
  unfold ended. rewrite in_somes, in_map_iff. split; intros [t [A B]]; exists t; tauto.
Qed.
Lemma ended_app a b : ended (a ++ b) = ended a ++ ended b.
Proof. unfold ended. rewrite map_app. apply somes_app. Qed.

Definition one (o : option nat) : list nat := match o with None => [] | Some n => [n] end.
Lemma ended_cons t l : ended (t :: l) = one (o_of t) ++ ended l.
Proof. unfold ended, somes. cbn. destruct (o_of t); reflexivity. Qed.

Lemma perm_ended a b : Permutation a b -> Permutation (ended a) (ended b).
Proof.
  intros P. unfold ended, somes. induction P; cbn; [constructor| | |].
  - apply Permutation_app_head, IHP.
  - rewrite !app_assoc. apply Permutation_app_tail, Permutation_app_comm.
  - eapply Permutation_trans; eassumption.
Qed.

Lemma all_front v u : Permutation (all (front v u)) (u :: all v).
Proof.
  unfold all, rest. cbn. destruct (vr v) as [r|]; cbn [app].
  - rewrite <- !app_assoc. cbn [app].
    apply Permutation_sym. rewrite !app_assoc. apply Permutation_middle.
  - rewrite <- !app_assoc. cbn [app]. apply Permutation_sym, Permutation_middle.
Qed.
Lemma all_back v u : all (back v u) = all v ++ [u].
Proof. unfold all, rest. cbn. rewrite <- !app_assoc. reflexivity. Qed.
Lemma all_back_perm v u : Permutation (all (back v u)) (u :: all v).
Proof. rewrite all_back. apply Permutation_sym, Permutation_cons_append. Qed.
Lemma all_front_split v u : exists a, all v = a ++ vb v /\ all (front v u) = a ++ u :: vb v.
Proof. exists (rest v ++ vf v). unfold all, rest. cbn. rewrite <- !app_assoc. split; reflexivity. Qed.

(** A push, with the lists of open elements and comments replaced by [lv]. *)
Lemma U_push v v' u lv :
  U v -> Permutation (all v') (u :: all v) -> o_id u = vs v -> vs v' = S (vs v) ->
  (o_of u <> None -> o_cat u = Kend) -> (forall n, o_of u = Some n -> n < S (vs v)) ->
  live v' = lv -> NoDup lv ->
  (forall n, In n lv -> (In n (live v) \/ (n = vs v /\ o_cat u = Kstart /\ o_text u = [])) /\ o_of u <> Some n) ->
  U v'.
Proof.
  intros [A B C D E G F] P I Sv K O L N H.
  assert (Fr : ~ In (vs v) (ids (all v))) by (intros X; specialize (B _ X); lia).
  constructor.
  - eapply Permutation_NoDup; [apply Permutation_sym, Permutation_map, P|].
    cbn. rewrite I. constructor; assumption.
  - intros i X. eapply Permutation_in in X; [|apply Permutation_map, P]. cbn in X.
    rewrite Sv. destruct X as [X|X]; [lia|]. specialize (B _ X). lia.
  - rewrite L. exact N.
  - intros n X. rewrite L in X. destruct (H n X) as [[Y|[Y1 [Y2 Y3]]] _].
    + destruct (D n Y) as [t [T1 T2]]. exists t. split; [|exact T2].
      eapply Permutation_in; [apply Permutation_sym, P|]. right. exact T1.
    + exists u. split; [eapply Permutation_in; [apply Permutation_sym, P|left; reflexivity]|].
      split; [congruence|]. split; assumption.
  - intros n X Y. rewrite L in X. destruct (H n X) as [Z W].
    eapply Permutation_in in Y; [|apply perm_ended, P]. rewrite ended_cons in Y.
    apply in_app_or in Y. destruct Y as [Y|Y].
    + destruct (o_of u); [|destruct Y]. destruct Y as [->|[]]. apply W. reflexivity.
    + destruct Z as [Z|[Z1 [Z2 Z3]]]; [exact (E n Z Y)|]. specialize (G _ Y). lia.
  - intros n Y. eapply Permutation_in in Y; [|apply perm_ended, P]. rewrite ended_cons in Y.
    rewrite Sv. apply in_app_or in Y. destruct Y as [Y|Y]; [|specialize (G _ Y); lia].
    destruct (o_of u); [|destruct Y]. destruct Y as [->|[]]. apply O. reflexivity.
  - intros t X. eapply Permutation_in in X; [|exact P].
    destruct X as [<-|X]; [exact K|apply F, X].
Qed.

(** Nothing pushed; types and arrangement may change, elements may be forgotten. *)
Lemma perm_untyped_ids a b : Permutation (map untyped a) (map untyped b) -> Permutation (ids a) (ids b).
Proof.
  intros P. apply (Permutation_map (fun x => fst (fst (fst x)))) in P. rewrite !map_map in P. exact P.
Qed.
Lemma perm_untyped_ended a b : Permutation (map untyped a) (map untyped b) -> Permutation (ended a) (ended b).
Proof.
  assert (Q : forall l, ended l = ended (map (fun x : nat * cat * bytes * option nat =>
     OTok (fst (fst (fst x))) TEof (snd (fst (fst x))) (snd (fst x)) (snd x)) (map untyped l))).
  { intros l. unfold ended. rewrite !map_map. reflexivity. }
  intros P. rewrite (Q a), (Q b). apply perm_ended, Permutation_map, P.
Qed.
Lemma U_same v v' :
  U v -> Permutation (map untyped (all v)) (map untyped (all v')) -> vs v' = vs v ->
  NoDup (live v') -> incl (live v') (live v) -> U v'.
Proof.
  intros [A B C D E G F] P Sv N L.
  pose proof (perm_untyped_ids _ _ P) as P1. pose proof (perm_untyped_ended _ _ P) as P2.
  assert (T : forall t, In t (all v') -> exists u, In u (all v) /\ untyped u = untyped t).
  { intros t X. apply (in_map untyped) in X. eapply Permutation_in in X; [|apply Permutation_sym, P].
    apply in_map_iff in X. destruct X as [u [X1 X2]]. exists u. auto. }
  constructor.
  - eapply Permutation_NoDup; eassumption.
  - intros i X. rewrite Sv. apply B. eapply Permutation_in; [apply Permutation_sym, P1|exact X].
  - exact N.
  - intros n X. destruct (D n (L _ X)) as [t [T1 [T2 [T3 T4]]]].
    apply (in_map untyped) in T1. eapply Permutation_in in T1; [|exact P].
    apply in_map_iff in T1. destruct T1 as [u [X1 X2]]. exists u. split; [exact X2|].
    unfold untyped in X1. injection X1 as Y1 Y2 Y3 Y4. repeat split; congruence.
  - intros n X Y. apply (E n (L _ X)). eapply Permutation_in; [apply Permutation_sym, P2|exact Y].
  - intros n Y. rewrite Sv. apply G. eapply Permutation_in; [apply Permutation_sym, P2|exact Y].
  - intros t X O. destruct (T t X) as [u [X1 X2]]. unfold untyped in X2. injection X2 as Y1 Y2 Y3 Y4.
    rewrite <- Y2. apply F; congruence.
Qed.

Lemma retype_untyped n ty l : map untyped (retype1 n ty l) = map untyped l.
Proof.
  unfold retype1. rewrite map_map. apply map_ext. intros t. destruct (_ =? _); reflexivity.
Qed.
Lemma retype_app n ty a b : retype1 n ty (a ++ b) = retype1 n ty a ++ retype1 n ty b.
Proof. apply map_app. Qed.
Lemma all_retype n ty v : all (retype_view n ty v) = retype1 n ty (all v).
Proof.
  unfold all, rest. cbn [vr vf vb retype_view].
  destruct (vr v) as [r|]; cbn [option_map oz oy retype_outer]; rewrite !retype_app; reflexivity.
Qed.
Lemma live_retype n ty v : live (retype_view n ty v) = live v.
Proof. reflexivity. Qed.
Lemma all_with_e v e : all (with_e v e) = all v.
Proof. reflexivity. Qed.
Lemma all_with_c v e : all (with_c v e) = all v.
Proof. reflexivity. Qed.

Lemma live_lt v n : U v -> In n (live v) -> n < vs v.
Proof.
  intros H L. destruct (u_start _ H n L) as [t [A [B _]]]. apply (u_lt _ H). subst n. apply in_map, A.
Qed.

Lemma U_neutral v v' u : U v -> neutral u -> o_id u = vs v -> Permutation (all v') (u :: all v) ->
  vs v' = S (vs v) -> live v' = live v -> U v'.
Proof.
  intros H [N1 N2] I P Sv L.
  apply (U_push v v' u (live v) H P I Sv).
  - rewrite N2. congruence.
  - rewrite N2. discriminate.
  - exact L.
  - apply H.
  - intros n X. split; [left; exact X|]. rewrite N2. discriminate.
Qed.

Lemma U_enter v v' : U v -> all v' = all v -> vs v' = vs v -> live v' = live v -> U v'.
Proof.
  intros H A Sv L. apply (U_same v v' H); [rewrite A; apply Permutation_refl|exact Sv| |].
  - rewrite L. apply H.
  - rewrite L. apply incl_refl.
Qed.

Lemma alike_app a a' b b' : alike a a' -> alike b b' -> alike (a ++ b) (a' ++ b').
Proof. unfold alike. intros A B. rewrite !map_app, A, B. reflexivity. Qed.

Lemma all_bare v : vr v = None -> all v = vf v ++ vb v.
Proof. intros E. unfold all, rest. rewrite E. reflexivity. Qed.
Lemma all_in v r : vr v = Some r -> all v = (oz r ++ oy r) ++ vf v ++ vb v.
Proof. intros E. unfold all, rest. rewrite E. reflexivity. Qed.

Lemma U_step f v v' : vstep f v v' -> U v -> U v'.
Proof.
  intros S H. destruct S as [v|v u N I K T|v u N I K T|v u N I|v u T N K I E1 E2 E3 E4|v u T N K I|v e
    |v n e r E|v e|v n e r E|v e|v c|v n c r E|v c|v n r E|v n e I|v t u T1 T2 C1 C2 O|v v' A1 A2 A3 R E1 E2 E3
    |v E1 E2|v f E1 E2|v r f E1 E2].
  - apply (U_enter v); [exact H| |reflexivity|reflexivity].
    unfold all, rest. cbn. rewrite app_nil_r. reflexivity.
  - apply (U_neutral v _ u H N I); [apply all_front|reflexivity|reflexivity].
  - apply (U_neutral v _ u H N I); [apply all_back_perm|reflexivity|reflexivity].
  - apply (U_neutral v _ u H N I); [apply all_back_perm|reflexivity|reflexivity].
  - apply (U_neutral v _ u H N I); [apply all_front|reflexivity|reflexivity].
  - apply (U_neutral v _ u H N I); [apply all_front|reflexivity|reflexivity].
  - apply (U_push v _ (start_tok v e) (vs v :: live v) H); try reflexivity.
    + rewrite all_with_e. apply all_front.
    + cbn. congruence.
    + cbn. discriminate.
    + constructor; [intros X; pose proof (live_lt _ _ H X); lia|apply H].
    + intros n [<-|X]; (split; [|discriminate]); [right; auto|left; exact X].
  - assert (L : live v = n :: map fst r ++ vc v) by (unfold live; rewrite E; reflexivity).
    pose proof (u_live _ H) as N. rewrite L in N. inversion N as [|? ? N1 N2]; subst.
    apply (U_push v _ (end_tok v e (Some n)) (map fst r ++ vc v) H); try reflexivity.
    + rewrite all_with_e. apply all_front.
    + cbn. intros m X. injection X as <-. assert (n < vs v); [|lia]. apply (live_lt v n H). rewrite L. left. reflexivity.
    + exact N2.
    + intros m X. split; [left; rewrite L; right; exact X|]. cbn. intros Y. injection Y as ->. apply N1, X.
  - apply (U_push v _ (end_tok v e None) (live v) H); try reflexivity.
    + apply all_front.
    + cbn. discriminate.
    + apply H.
    + intros m X. split; [left; exact X|discriminate].
  - apply (U_same v); [exact H|apply Permutation_refl|reflexivity| |];
      (assert (L : live v = n :: live (with_e v r)) by (unfold live; cbn; rewrite E; reflexivity)).
    + pose proof (u_live _ H) as N. rewrite L in N. inversion N; assumption.
    + rewrite L. intros x X. right. exact X.
  - assert (H1 : U (front v (start_tok v e))).
    { apply (U_push v _ (start_tok v e) (live v) H); try reflexivity.
      + apply all_front.
      + cbn. congruence.
      + cbn. discriminate.
      + apply H.
      + intros n X; split; [left; exact X|discriminate]. }
    apply (U_push _ _ (OTok (S (vs v)) (TE e) Kend [] (Some (vs v))) (live v) H1); try reflexivity.
    + apply all_front.
    + cbn. intros n X. injection X as <-. lia.
    + apply H.
    + intros n X; split; [left; exact X|]. cbn. intros Y. injection Y as <-.
      pose proof (live_lt _ _ H X). lia.
  - apply (U_push v _ (start_tok v (Ecomment c)) (map fst (ve v) ++ vs v :: vc v) H); try reflexivity.
    + rewrite all_with_c. apply all_back_perm.
    + cbn. congruence.
    + cbn. discriminate.
    + eapply Permutation_NoDup; [apply Permutation_middle|].
      constructor; [intros X; pose proof (live_lt _ _ H X); lia|apply H].
    + intros n X. apply in_app_or in X. split; [|discriminate]. unfold live. rewrite in_app_iff.
      destruct X as [X|[<-|X]]; auto.
  - assert (L : Permutation (live v) (n :: map fst (ve v) ++ r)).
    { unfold live. rewrite E. apply Permutation_sym, Permutation_middle. }
    pose proof (Permutation_NoDup L (u_live _ H)) as N. inversion N as [|? ? N1 N2]; subst.
    apply (U_push v _ (end_tok v (Ecomment c) (Some n)) (map fst (ve v) ++ r) H); try reflexivity.
    + rewrite all_with_c. apply all_back_perm.
    + cbn. intros m X. injection X as <-. assert (n < vs v); [|lia]. apply (live_lt v n H).
      eapply Permutation_in; [apply Permutation_sym, L|left; reflexivity].
    + exact N2.
    + intros m X. split; [left; eapply Permutation_in; [apply Permutation_sym, L|right; exact X]|].
      cbn. intros Y. injection Y as ->. apply N1, X.
  - apply (U_push v _ (end_tok v (Ecomment c) None) (live v) H); try reflexivity.
    + apply all_back_perm.
    + cbn. discriminate.
    + apply H.
    + intros m X. split; [left; exact X|discriminate].
  - assert (L : Permutation (live v) (n :: map fst (ve v) ++ r)).
    { unfold live. rewrite E. apply Permutation_sym, Permutation_middle. }
    apply (U_same v); [exact H|apply Permutation_refl|reflexivity| |].
    + pose proof (Permutation_NoDup L (u_live _ H)) as N. inversion N; assumption.
    + intros x X. eapply Permutation_in; [apply Permutation_sym, L|right; exact X].
  - assert (L : map fst (map (fun x => if fst x =? n then (fst x, e) else x) (ve v)) = map fst (ve v)).
    { rewrite map_map. apply map_ext. intros x. destruct (_ =? _); reflexivity. }
    apply (U_same v); [exact H| |reflexivity| |].
    + rewrite all_with_e, all_retype, retype_untyped. apply Permutation_refl.
    + unfold live. cbn [ve vc with_e retype_view]. rewrite L. apply H.
    + unfold live. cbn [ve vc with_e retype_view]. rewrite L. apply incl_refl.
  - apply (U_same v); [exact H| |reflexivity|apply H|apply incl_refl].
    rewrite !all_retype, !retype_untyped. apply Permutation_refl.
  - apply (U_same v); [exact H| |exact E3| |].
    + assert (A : alike (all v) (all v')) by (apply alike_app; [exact A1|apply alike_app; assumption]).
      unfold alike in A. rewrite A. apply Permutation_refl.
    + unfold live. rewrite E1, E2. apply H.
    + unfold live. rewrite E1, E2. apply incl_refl.
  - apply (U_enter v); [exact H| |reflexivity|reflexivity].
    rewrite (all_bare v E1). unfold all, rest. cbn. rewrite app_nil_r. reflexivity.
  - apply (U_enter v); [exact H| |reflexivity|reflexivity].
    rewrite (all_bare v E1). unfold all, rest. cbn. rewrite app_nil_r. reflexivity.
  - apply (U_enter v); [exact H| |reflexivity|reflexivity].
    rewrite (all_in v r E1). unfold all, rest. cbn. rewrite <- !app_assoc. reflexivity.
Qed.

Lemma U_run P v v' : vrun P v v' -> U v -> U v'.
Proof. intros R. induction R as [|v1 v2 v3 f R IH St Q]; intros H; [exact H|]. eapply U_step; [exact St|auto]. Qed.

(** * Tokens print as what they are *)
Definition K (v : view) : Prop := forall t, In t (all v) -> kind_ok t.

Lemma K_push v v' u : K v -> Permutation (all v') (u :: all v) -> kind_ok u -> K v'.
Proof.
  intros A P Q t X. eapply Permutation_in in X; [|exact P]. destruct X as [<-|X]; [exact Q|apply A, X].
Qed.
Lemma in_retype n ty l t : In t (retype1 n ty l) ->
  exists u, In u l /\ t = if o_id u =? n then retyped ty u else u.
Proof. unfold retype1. rewrite in_map_iff. intros [u [A B]]. exists u. auto. Qed.

Lemma same_id v t u : U v -> In t (all v) -> In u (all v) -> o_id t = o_id u -> t = u.
Proof.
  intros H. pose proof (u_ids _ H) as N. unfold ids in N. revert N. generalize (all v) as l.
  induction l as [|x l IH]; intros N A B E; [destruct A|].
  cbn in N. inversion N as [|? ? N1 N2]; subst.
  destruct A as [<-|A], B as [<-|B]; [reflexivity| | |apply IH; assumption].
  - exfalso. apply N1. rewrite E. apply in_map, B.
  - exfalso. apply N1. rewrite <- E. apply in_map, A.
Qed.

Lemma kind_tag t n e : (o_cat t = Kstart \/ o_cat t = Kend) -> o_text t = [] ->
  kind_ok (if o_id t =? n then retyped (TE e) t else t) \/ o_id t <> n.
Proof.
  intros C X. destruct (o_id t =? n) eqn:Q; [left|right; apply Nat.eqb_neq, Q].
  unfold kind_ok. cbn. destruct C as [-> | ->]; exact X.
Qed.

Lemma kind_retype n e l t :
  (forall u, In u l -> kind_ok u) ->
  (forall u, In u l -> o_id u = n -> (o_cat u = Kstart \/ o_cat u = Kend)) ->
  In t (retype1 n (TE e) l) -> kind_ok t.
Proof.
  intros A B X. apply in_retype in X. destruct X as [u [X ->]].
  destruct (o_id u =? n) eqn:Q; [|apply A, X]. apply Nat.eqb_eq in Q.
  specialize (A u X). specialize (B u X Q). unfold kind_ok in *. cbn.
  destruct (o_type u) as [[]| |], B as [Z|Z]; rewrite Z in *; try contradiction; exact A.
Qed.

Lemma K_step f v v' : vstep f v v' -> f <> Some Fnop -> f <> Some Fmacro -> U v -> K v -> K v'.
Proof.
  intros S F1 F2 H A. destruct S as [v|v u N I Q T|v u N I Q T|v u N I|v u T N Q I E1 E2 E3 E4|v u T N Q I|v e
    |v n e r E|v e|v n e r E|v e|v c|v n c r E|v c|v n r E|v n e I|v t u T1 T2 C1 C2 O|v v' A1 A2 A3 R E1 E2 E3
    |v E1 E2|v f E1 E2|v r f E1 E2]; try congruence.
  - intros t X. apply A. unfold all, rest in *. cbn in X. rewrite app_nil_r in X. exact X.
  - apply (K_push v _ u A); [apply all_front|exact Q].
  - apply (K_push v _ u A); [apply all_back_perm|exact Q].
  - apply (K_push v _ u A); [apply all_front|exact Q].
  - apply (K_push v _ u A); [apply all_front|exact Q].
  - apply (K_push v _ (start_tok v e) A); [apply all_front|reflexivity].
  - apply (K_push v _ (end_tok v e (Some n)) A); [apply all_front|reflexivity].
  - apply (K_push v _ (end_tok v e None) A); [apply all_front|reflexivity].
  - exact A.
  - apply (K_push (front v (start_tok v e)) _ (OTok (S (vs v)) (TE e) Kend [] (Some (vs v)))); [|apply all_front|reflexivity].
    apply (K_push v _ (start_tok v e) A); [apply all_front|reflexivity].
  - apply (K_push v _ (start_tok v (Ecomment c)) A); [apply all_back_perm|reflexivity].
  - apply (K_push v _ (end_tok v (Ecomment c) (Some n)) A); [apply all_back_perm|reflexivity].
  - apply (K_push v _ (end_tok v (Ecomment c) None) A); [apply all_back_perm|reflexivity].
  - exact A.
  - intros t X. rewrite all_with_e, all_retype in X. apply (kind_retype n e (all v)); [exact A| |exact X].
    intros u Y Z. left.
    destruct (u_start _ H n) as [w [W1 [W2 [W3 _]]]]; [apply in_or_app; left; exact I|].
    rewrite (same_id v u w H Y W1); [exact W3|congruence].
  - intros x X. rewrite !all_retype in X.
    apply (kind_retype (o_id u) Enop (retype1 (o_id t) (TE Enop) (all v))); [| |exact X].
    + intros y Y. apply (kind_retype (o_id t) Enop (all v)); [exact A| |exact Y].
      intros z Z1 Z2. rewrite (same_id v z t H Z1 T1 Z2). left. exact C1.
    + intros y Y Z. apply in_retype in Y. destruct Y as [w [W ->]].
      assert (Q : o_cat (if o_id w =? o_id t then retyped (TE Enop) w else w) = o_cat w) by (destruct (_ =? _); reflexivity).
      rewrite Q. assert (Q2 : o_id w = o_id u) by (destruct (o_id w =? o_id t); exact Z).
      rewrite (same_id v w u H W T2 Q2). right. exact C2.
  - intros t X. apply A. rewrite (all_bare v E1). unfold all, rest in X. cbn in X. rewrite app_nil_r in X. exact X.
  - intros t X. apply A. rewrite (all_bare v E1). unfold all, rest in X. cbn in X. rewrite app_nil_r in X. exact X.
  - intros t X. apply A. rewrite (all_in v r E1). unfold all, rest in X. cbn in X. rewrite <- !app_assoc. exact X.
Qed.

Lemma K_run (P : fault -> Prop) v v' : ~ P Fnop -> ~ P Fmacro -> vrun P v v' -> U v -> K v -> K v'.
Proof.
  intros N1 N2. induction 1 as [|v1 v2 v3 f R IH S Q]; intros H A; [exact A|].
  eapply K_step; [exact S| | |eapply U_run; eassumption|auto]; intros ->; [apply N1|apply N2]; apply Q; reflexivity.
Qed.
