(** --to-dir (C62): the files of a request. *)
From Verif Require Import Base Text_Model Text_Spec Api_Model Api_Spec Api_Proofs Writer_Model Writer_Spec Archive_Model Archive_Spec Archive_Proofs2 Archive_Proofs3 Archive_Proofs4 Input_Model
  Create_Model Create_Spec Create_Proofs Create_Proofs2 Create_Proofs3 Create_Proofs5 Todir_Model Todir_Spec Todir_Proofs Todir_Proofs2.
Local Open Scope N_scope.
Lemma beqb_same_iff : forall a b, beqb a b = true <-> a = b.
Proof. intros a b. unfold beqb. destruct (list_eq_dec N.eq_dec a b); split; intros; congruence. Qed.

Lemma alike_run : forall cs a, Forall mild cs -> alike (run cs a) a.
Proof.
  induction cs as [|c cs IH]; intros a F; [reflexivity|]. inversion F as [|x l F1 F2]; subst. change (run (c :: cs) a) with (run cs (snd (step a c))). unfold alike in *. rewrite (IH _ F2). apply alike_mild, F1.
Qed.
Lemma settings_run : forall cs m, exists rs m', arun m (map Setting cs) = Ok (rs, m').
Proof.
  induction cs as [|c cs IH]; intros m; [eexists _, _; reflexivity|]. cbn [map arun astep]. destruct (step (am_a m) c) as [s a]. cbn [obind fst snd]. set (m1 := AM _ _ _ _ _ _ _ _ _ _ _ _).
  destruct (IH m1) as (rs & m' & ->). cbn [obind fst snd]. eexists _, _. reflexivity.
Qed.
Lemma no_namespaces : forall r ins, no_srcml ins -> flat_map (input_namespaces r) (all_leaves ins) = [].
Proof.
  intros r ins H. unfold no_srcml in H. induction (all_leaves ins) as [|i l IH]; [reflexivity|]. cbn [forallb flat_map] in *. apply andb_prop in H. destruct H as [A B]. rewrite (IH B), app_nil_r. destruct i; try reflexivity. discriminate A.
Qed.
Lemma made_files : forall r ins ps, no_srcml ins -> (exists t, starts_files r ins ps t) ->
  exists a, requested r ins a /\ forall creates t l, starts_files r ins ps t -> files creates (c_mode r) a (all_sources ins) ps l ->
    makes creates r ins ps t l /\ forall l', makes creates r ins ps t l' -> l' = l.
Proof.
  intros r ins ps NS (t0 & cs & ms & w & fl & SE & HA & _).
  set (L := (if as_archive r ins then [DisableSolitary] else []) ++ (if with_hash r ins then [EnableHash] else [])).
  assert (ML : Forall mild L) by (unfold L; apply Forall_app; split; [destruct (as_archive r ins); repeat constructor|destruct (with_hash r ins); repeat constructor]).
  assert (RQ : requested r ins (run (cs ++ L) archive_create)).
  { apply settings_asked; try assumption.
    - eapply Forall_impl; [|exact ML]. intros c C. left. exact C.
    - rewrite (no_namespaces r ins NS). unfold L. destruct (as_archive r ins), (with_hash r ins), (c_output_xml r); reflexivity.
    - destruct (lone r (map fst ins)) eqn:LO; [cbn [negb orb]; unfold L; destruct (as_archive r ins), (with_hash r ins); reflexivity|]. unfold as_archive. rewrite (lone_none _ _ LO). reflexivity.
    - destruct (lone r (map fst ins)) eqn:LO; [|unfold with_hash; rewrite (lone_none _ _ LO); reflexivity]. cbn [negb orb].
      assert (H : hashes L = with_hash r ins) by (unfold L; destruct (as_archive r ins), (with_hash r ins); reflexivity). rewrite H. unfold with_hash. destruct (single r ins); destruct (c_hash r); reflexivity. }
  exists (run (cs ++ L) archive_create). split; [exact RQ|]. set (a := run (cs ++ L) archive_create) in *.
  assert (RUN : exists rs m1, arun new_am (map Setting cs) = Ok (rs, m1) /\ idle a m1).
  { destruct (settings_run cs new_am) as (rs & m1 & E). exists rs, m1. split; [exact E|].
    assert (NI : Forall no_input (map Setting cs)) by (apply Forall_map, Forall_forall; intros; exact I).
    destruct (settings_ok _ _ _ _ E NI) as [SA AT]. rewrite settings_map in SA. change (am_a new_am) with archive_create in SA. split; [|exact AT]. rewrite SA. unfold a. rewrite run_app.
    unfold alike. symmetry. apply alike_run, ML. }
  destruct RUN as (rs & m1 & RUN & ID).
  assert (MILD : Forall mild_event ms).
  { apply (handle_mild _ _ _ _ _ HA). unfold no_srcml in NS. apply forallb_forall. intros i IN. rewrite forallb_forall in NS. specialize (NS i IN). unfold foreign. destruct (is_srcml i); [discriminate NS|]. rewrite andb_false_r. reflexivity. }
  intros creates t l (cs' & ms' & w' & fl' & SE' & HA' & WV) FI. rewrite SE in SE'. injection SE' as <-. rewrite HA in HA'. injection HA' as <- <- <-.
  destruct (woven_calls _ _ _ _ _ WV MILD eq_refl) as (CA & OT & _). cbn [others filter app] in OT. rewrite (handle_scheduled _ _ _ _ _ HA) in OT.
  assert (E := all_files creates _ a _ _ _ FI t m1 ID CA OT).
  split.
  - exists cs, ms, w, fl, rs, m1. auto.
  - intros l' (cs' & ms' & w' & fl' & rs' & m1' & SE' & HA' & _ & RUN' & E'). rewrite SE in SE'. injection SE' as <-. rewrite RUN in RUN'. injection RUN' as <- <-. rewrite E in E'. injection E' as <-. reflexivity.
Qed.

(** ** What is on disk *)
Lemma file_at_no : forall p l, ~ In p (map fst l) -> file_at p l = None.
Proof.
  intros p. induction l as [|[q s] l IH]; intros N; [reflexivity|]. cbn [file_at map fst In] in *. rewrite IH by tauto. destruct (beqb p q) eqn:E; [|reflexivity]. apply beqb_same_iff in E. exfalso. apply N. left. congruence.
Qed.
Lemma file_at_last : forall p s l1 l2, ~ In p (map fst l2) -> file_at p (l1 ++ (p, s) :: l2) = Some s.
Proof.
  intros p s l1 l2 N. induction l1 as [|[q x] l1 IH]; cbn [app file_at]; [|rewrite IH; reflexivity]. rewrite (file_at_no _ _ N). assert (E : beqb p p = true) by (apply beqb_same_iff; reflexivity). rewrite E. reflexivity.
Qed.
Lemma file_at_each : forall l p s, NoDup (map fst l) -> In (p, s) l -> file_at p l = Some s.
Proof.
  intros l p s D I. apply in_split in I. destruct I as (l1 & l2 & ->). apply file_at_last. rewrite map_app in D. cbn [map fst] in D. apply NoDup_remove_2 in D. intros J. apply D. apply in_or_app. right. exact J.
Qed.
Lemma files_split : forall creates m a qs1 ps1 q d n qs2 ps2 l, length qs1 = length ps1 ->
  files creates m a (qs1 ++ q :: qs2) (ps1 ++ At (Some d) (Some n) :: ps2) l -> has_unit q = true -> units_of q <> [] \/ scalar q = true -> creates (d ++ txt "/" ++ n ++ txt ".xml") = true ->
  exists s l1 l2, l = l1 ++ (d ++ txt "/" ++ n ++ txt ".xml", s) :: l2 /\ file_of m a q s /\ files creates m a qs1 ps1 l1 /\ files creates m a qs2 ps2 l2.
Proof.
  intros creates m a. induction qs1 as [|q1 qs1 IH]; intros [|p1 ps1] q d n qs2 ps2 l LEN F H U C; try discriminate LEN; cbn [app] in F.
  - inversion F as [|q' p' qs' ps' l' N1 N2 F'|q' d' n' s qs' ps' l' H' FO F']; subst.
    + destruct U; congruence.
    + rewrite C. exists s, [], l'. cbn [app]. split; [reflexivity|]. split; [exact FO|]. split; [constructor|exact F'].
  - injection LEN as LEN. inversion F as [|q' p' qs' ps' l' N1 N2 F'|q' d' n' s qs' ps' l' H' FO F']; subst.
    + destruct (IH _ _ _ _ _ _ _ LEN F' H U C) as (s & l1 & l2 & -> & A & B & D). exists s, l1, l2. split; [reflexivity|]. split; [exact A|]. split; [constructor; assumption|exact D].
    + destruct (IH _ _ _ _ _ _ _ LEN F' H U C) as (s2 & l1 & l2 & -> & A & B & D). eexists s2, (_ ++ l1), l2. rewrite <- app_assoc. split; [reflexivity|]. split; [exact A|]. split; [constructor; assumption|exact D].
Qed.
Lemma names_of : forall creates m a qs ps l, files creates m a qs ps l -> forall p s, In (p, s) l -> exists q d n, In q qs /\ In (At (Some d) (Some n)) ps /\ p = d ++ txt "/" ++ n ++ txt ".xml" /\ file_of m a q s.
Proof.
  intros creates m a qs ps l F. induction F as [|q x qs ps l NU SC F IH|q d n s qs ps l H FO F IH]; intros p s0 I; [destruct I| |].
  - destruct (IH p s0 I) as (q' & d & n & A & B & C). exists q', d, n. split; [right; exact A|]. split; [right; exact B|exact C].
  - apply in_app_or in I. destruct I as [I|I].
    + destruct (creates _); [|destruct I]. destruct I as [I|[]]. injection I as <- <-. exists q, d, n. split; [left; reflexivity|]. split; [left; reflexivity|]. split; [reflexivity|exact FO].
    + destruct (IH p s0 I) as (q' & d' & n' & A & B & C). exists q', d', n'. split; [right; exact A|]. split; [right; exact B|exact C].
Qed.
