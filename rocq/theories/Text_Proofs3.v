(** Proofs for C30. *)
From Verif Require Import Base Text_Model Text_Spec.
Local Open Scope N_scope.

Definition bdec := list_eq_dec N.eq_dec.
Lemma beqb_true : forall a b, beqb a b = true <-> a = b.
Proof. intros a b. unfold beqb. destruct (list_eq_dec N.eq_dec a b); split; congruence. Qed.
Lemma beqb_refl : forall a, beqb a a = true. Proof. intros. apply beqb_true. reflexivity. Qed.
Lemma beqb_false : forall a b, beqb a b = false <-> a <> b.
Proof. intros a b. unfold beqb. destruct (list_eq_dec N.eq_dec a b); split; congruence. Qed.

Fixpoint upd (ps : list (bytes * bytes)) (n v : bytes) : list (bytes * bytes) :=
  match ps with
  | [] => [(n, v)]
  | (m, w) :: t => if beqb m n then (m, v) :: t else (m, w) :: upd t n v
  end.
Lemma update_pairs_flat : forall ps n v, update_pairs (flatten ps) n v = Ok (flatten (upd ps n v)).
Proof.
  induction ps as [|[m w] ps IH]; intros n v; [reflexivity|].
  cbn. destruct (beqb m n); [reflexivity|]. fold (flatten ps). rewrite IH. reflexivity.
Qed.
Lemma upd_names : forall ps n v, map fst (upd ps n v) =
  map fst ps ++ (if in_dec bdec n (map fst ps) then [] else [n]).
Proof.
  induction ps as [|[m w] ps IH]; intros n v; [reflexivity|].
  cbn [upd map fst]. unfold beqb. destruct (list_eq_dec N.eq_dec m n) as [->|NE].
  - cbn [map fst app]. destruct (in_dec bdec n (n :: map fst ps)) as [_|X]; [now rewrite app_nil_r|exfalso; apply X; left; reflexivity].
  - cbn [map fst app]. rewrite IH. f_equal. f_equal.
    destruct (in_dec bdec n (map fst ps)) as [I|I], (in_dec bdec n (m :: map fst ps)) as [J|J]; try reflexivity.
    + exfalso. apply J. now right.
    + destruct J as [J|J]; [congruence|contradiction].
Qed.
Lemma last_value_notin : forall n ps, ~ In n (map fst ps) -> last_value n ps = None.
Proof.
  induction ps as [|[m w] ps IH]; intros H; [reflexivity|]. cbn in *.
  rewrite IH by tauto. destruct (list_eq_dec N.eq_dec m n); [exfalso; tauto|reflexivity].
Qed.
Lemma upd_value : forall ps n v, NoDup (map fst ps) -> forall k,
  last_value k (upd ps n v) = if list_eq_dec N.eq_dec n k then Some v else last_value k ps.
Proof.
  induction ps as [|[m w] ps IH]; intros n v ND k; [reflexivity|].
  cbn in ND. inversion ND as [|x l NI ND']; subst. cbn [upd]. unfold beqb.
  destruct (list_eq_dec N.eq_dec m n) as [->|NE].
  - cbn [last_value]. destruct (list_eq_dec N.eq_dec n k) as [->|NK].
    + rewrite last_value_notin by assumption. reflexivity.
    + reflexivity.
  - cbn [last_value]. rewrite IH by assumption.
    destruct (list_eq_dec N.eq_dec n k) as [->|NK]; reflexivity.
Qed.

Lemma in_dec_app_iff : forall x (a b : list bytes), In x (a ++ b) <-> In x a \/ In x b.
Proof. intros. apply in_app_iff. Qed.
Lemma first_seen_ext : forall l s1 s2, (forall x, In x s1 <-> In x s2) -> first_seen s1 l = first_seen s2 l.
Proof.
  induction l as [|n l IH]; intros s1 s2 E; [reflexivity|]. cbn.
  destruct (in_dec (list_eq_dec N.eq_dec) n s1) as [I|I], (in_dec (list_eq_dec N.eq_dec) n s2) as [J|J].
  - now apply IH.
  - exfalso. apply J, E, I.
  - exfalso. apply I, E, J.
  - f_equal. apply IH. intros x. cbn. rewrite E. reflexivity.
Qed.
Lemma NoDup_snoc : forall (l : list bytes) x, NoDup l -> ~ In x l -> NoDup (l ++ [x]).
Proof.
  intros l x H N. rewrite <- (rev_involutive (l ++ [x])). apply NoDup_rev. rewrite rev_app_distr. cbn.
  constructor; [rewrite <- in_rev; assumption|apply NoDup_rev; assumption].
Qed.
Lemma upd_nodup : forall ps n v, NoDup (map fst ps) -> NoDup (map fst (upd ps n v)).
Proof.
  intros ps n v H. rewrite upd_names. destruct (in_dec bdec n (map fst ps)); [now rewrite app_nil_r|now apply NoDup_snoc].
Qed.

(** the fields, by attribute name *)
Definition fields : list (bytes * (uattrs -> option bytes)) :=
  [(txt "timestamp", ua_timestamp); (txt "hash", ua_hash); (txt "language", ua_language); (txt "revision", ua_revision);
   (txt "filename", ua_filename); (txt "url", ua_url); (txt "version", ua_version)].

Definition special (n : bytes) : Prop := In n (known_names ++ ignored_names).

Lemma step_spec : forall u ps n v, ua_attributes u = flatten ps ->
  exists u', update_attribute u (n, v) = Ok u' /\
    (forall k get, In (k, get) fields -> get u' = if list_eq_dec N.eq_dec n k then Some v else get u) /\
    (special n -> ua_attributes u' = flatten ps) /\
    (~ special n -> ua_attributes u' = flatten (upd ps n v)).
Proof.
  intros u ps n v E.
  unfold update_attribute, beqb.
  repeat match goal with
  | |- context [if (if list_eq_dec N.eq_dec ?a ?b then true else false) then _ else _] =>
      destruct (list_eq_dec N.eq_dec a b) as [->|?]
  end.
  1-7: (eexists; split; [reflexivity|]; split;
    [ intros k get I; unfold fields in I; cbn [In] in I;
      repeat (destruct I as [I|I]; [injection I as <- <-; reflexivity|]); destruct I
    | split; [intros _; exact E | intros NS; exfalso; apply NS; unfold special; cbn; tauto] ]).
  assert (FL : forall k get, In (k, get) fields -> n <> k).
  { intros k get I ->. unfold fields in I. cbn [In] in I.
    repeat (destruct I as [I|I]; [injection I as <- <-; congruence|]). destruct I. }
  destruct ((if list_eq_dec N.eq_dec n (txt "tabs") then true else false)
     || (if list_eq_dec N.eq_dec n (txt "options") then true else false)
     || false)%bool eqn:Q.
  - eexists. split; [reflexivity|]. split.
    + intros k get I. destruct (list_eq_dec N.eq_dec n k) as [->|]; [exfalso; eapply FL; eauto|reflexivity].
    + split; [intros _; exact E|]. intros NS. exfalso. apply NS.
      unfold special, known_names, ignored_names. rewrite in_app_iff. right.
      destruct (list_eq_dec N.eq_dec n (txt "tabs")) as [->|]; [left; reflexivity|].
      destruct (list_eq_dec N.eq_dec n (txt "options")) as [->|]; [right; left; reflexivity|discriminate].
  - rewrite E, update_pairs_flat. cbn [obind]. eexists. split; [reflexivity|]. split.
    + intros k get I. destruct (list_eq_dec N.eq_dec n k) as [->|]; [exfalso; eapply FL; eauto|].
      unfold fields in I. cbn [In] in I.
      repeat (destruct I as [I|I]; [injection I as <- <-; reflexivity|]). destruct I.
    + split; [|intros _; reflexivity]. intros S. exfalso.
      unfold special, known_names, ignored_names in S. rewrite in_app_iff in S.
      destruct (list_eq_dec N.eq_dec n (txt "tabs")) as [->|]; [discriminate|].
      destruct (list_eq_dec N.eq_dec n (txt "options")) as [->|]; [discriminate|].
      cbn [map In] in S. intuition congruence.
Qed.

Lemma fold_ub : forall l, fold_left (fun u a => obind u (fun u => update_attribute u a)) l UB = UB.
Proof. induction l; [reflexivity|exact IHl]. Qed.

Lemma update_attributes_ok : forall l u ps, ua_attributes u = flatten ps -> NoDup (map fst ps) ->
  exists u' ps', update_attributes u l = Ok u' /\ ua_attributes u' = flatten ps' /\ NoDup (map fst ps') /\
    (forall k get, In (k, get) fields -> get u' = or_else (last_value k l) (get u)) /\
    map fst ps' = map fst ps ++ first_seen (map fst ps) (map fst (others l)) /\
    (forall k, last_value k ps' = or_else (last_value k (others l)) (last_value k ps)).
Proof.
  induction l as [|[n v] l IH]; intros u ps E ND.
  - exists u, ps. cbn. rewrite app_nil_r. auto 10.
  - destruct (step_spec u ps n v E) as (u1 & S1 & F1 & SP & NSP).
    unfold update_attributes. cbn [fold_left obind]. rewrite S1. fold (update_attributes u1 l).
    unfold others. cbn [filter fst].
    destruct (in_dec (list_eq_dec N.eq_dec) n (known_names ++ ignored_names)) as [I|I].
    + destruct (IH u1 ps (SP I) ND) as (u' & ps' & R & A & ND' & FF & NM & LV).
      exists u', ps'. split; [exact R|]. split; [exact A|]. split; [exact ND'|]. split; [|split; [exact NM|exact LV]].
      intros k get IK. rewrite (FF k get IK), (F1 k get IK). cbn [last_value].
      destruct (last_value k l); [reflexivity|]. cbn. destruct (list_eq_dec N.eq_dec n k); reflexivity.
    + assert (ND1 : NoDup (map fst (upd ps n v))) by now apply upd_nodup.
      destruct (IH u1 (upd ps n v) (NSP I) ND1) as (u' & ps' & R & A & ND' & FF & NM & LV).
      exists u', ps'. split; [exact R|]. split; [exact A|]. split; [exact ND'|]. split.
      { intros k get IK. rewrite (FF k get IK), (F1 k get IK). cbn [last_value].
        destruct (last_value k l); [reflexivity|]. cbn. destruct (list_eq_dec N.eq_dec n k); reflexivity. }
      split.
      { rewrite NM, upd_names. cbn [map fst first_seen].
        unfold bdec. destruct (in_dec (list_eq_dec N.eq_dec) n (map fst ps)) as [J|J].
        - rewrite app_nil_r. reflexivity.
        - rewrite <- app_assoc. f_equal. cbn [app]. f_equal. apply first_seen_ext.
          intros x. rewrite in_app_iff. cbn. tauto. }
      intros k. rewrite LV. fold (others l). cbn [last_value]. rewrite upd_value by assumption.
      destruct (last_value k (others l)); [reflexivity|]. cbn.
      destruct (list_eq_dec N.eq_dec n k); reflexivity.
Qed.

(** ** Witnesses for the refutations *)
Lemma memory_nul_witness : exists e src, unparse_memory e src <> unparse e src.
Proof. exists EOL_AUTO, [97; 0; 98]. vm_compute. discriminate. Qed.
Lemma cdata_witness : exists evs, snd (read_unit_body evs) <> loc_written (fst (read_unit_body evs)).
Proof. exists [CData [97; 10; 98; 10]]. vm_compute. discriminate. Qed.
Lemma trailing_witness : exists f k, srcdiff 0 false Both f k /\ extract_revision f 0 false <> Ok k.
Proof.
  exists (txt "<name>a</name>;"), (txt "<name>a</name>;"). split; [|vm_compute; discriminate].
  assert (NB : forall b s, forallb (fun c => negb (c =? b)) s = true -> no_byte b s).
  { intros b s H. apply Forall_forall. rewrite forallb_forall in H. intros x I. specialize (H x I). lia. }
  apply (sd_tag 0 false Both (txt "name") (txt "a</name>;") (txt "a</name>;")).
  { repeat split; [apply NB; reflexivity|discriminate|discriminate]. }
  apply (sd_text 0 false Both (txt "a") (txt "</name>;") (txt "</name>;")); [apply NB; reflexivity|].
  apply (sd_tag 0 false Both (txt "/name") (txt ";") (txt ";")).
  { repeat split; [apply NB; reflexivity|discriminate|discriminate]. }
  apply (sd_text 0 false Both (txt ";") [] []); [apply NB; reflexivity|constructor].
Qed.
