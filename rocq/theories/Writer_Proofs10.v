(** Reading back escaped text; counterexamples for C21, C22. *)
From Verif Require Import Base Text_Model Text_Spec Text_Proofs Text_Proofs2 Text_Proofs3 Api_Model Api_Proofs Api_Proofs3 Writer_Model Writer_Spec Writer_Proofs Writer_Proofs2 Writer_Proofs3 Writer_Proofs4 Writer_Proofs5 Writer_Proofs6 Writer_Proofs7 Writer_Proofs8 Writer_Proofs9.
Local Open Scope N_scope.

Lemma ref_amp : forall c r, In (c, r) references -> exists t, r = 38 :: t.
Proof. intros c r I. vm_compute in I. repeat (destruct I as [I|I]; [injection I as <- <-; eexists; reflexivity|]). destruct I. Qed.
Lemma ref_unique : forall c r e c' r' e', In (c, r) references -> In (c', r') references -> r ++ e = r' ++ e' -> c = c' /\ e = e'.
Proof.
  intros c r e c' r' e' I I' E. vm_compute in I, I'.
  repeat (destruct I as [I|I]; [injection I as <- <-; repeat (destruct I' as [I'|I']; [injection I' as <- <-; cbn [app] in E; first [discriminate E|injection E as <-; split; reflexivity]|]); destruct I'|]).
  destruct I.
Qed.
Lemma attr_value_unique : forall e v v', attr_value e v -> attr_value e v' -> v = v'.
Proof.
  intros e v v' H. revert v'. induction H as [|c e v A B C D H IH|c r e v I H IH]; intros v' H'.
  - inversion H' as [| |c r e v I E]; [reflexivity|]. subst. destruct (ref_amp _ _ I) as (t & ->). discriminate.
  - inversion H' as [|c' e' v'' A' B' C' D' E|c' r e' v'' I E X]; subst; [f_equal; apply IH; assumption|]. destruct (ref_amp _ _ I) as (t & ->). cbn in X. injection X as <- _. contradiction.
  - remember (r ++ e) as s eqn:S. destruct H' as [|c' e' v'' A' B' C' D' E|c' r' e' v'' I' E].
    + destruct (ref_amp _ _ I) as (t & ->). discriminate.
    + destruct (ref_amp _ _ I) as (t & ->). cbn in S. injection S as -> _. contradiction.
    + destruct (ref_unique _ _ _ _ _ _ I I' (eq_sym S)) as [-> ->]. f_equal. apply IH, E.
Qed.
Lemma char_data_unique : forall e v v', char_data e v -> char_data e v' -> v = v'.
Proof.
  intros e v v' H. revert v'. induction H as [|c e v A B C H IH|c r e v I H IH]; intros v' H'.
  - inversion H' as [| |c r e v I E]; [reflexivity|]. subst. destruct (ref_amp _ _ I) as (t & ->). discriminate.
  - inversion H' as [|c' e' v'' A' B' C' E|c' r e' v'' I E X]; subst; [f_equal; apply IH; assumption|]. destruct (ref_amp _ _ I) as (t & ->). cbn in X. injection X as <- _. contradiction.
  - remember (r ++ e) as s eqn:S. destruct H' as [|c' e' v'' A' B' C' E|c' r' e' v'' I' E].
    + destruct (ref_amp _ _ I) as (t & ->). discriminate.
    + destruct (ref_amp _ _ I) as (t & ->). cbn in S. injection S as -> _. contradiction.
    + destruct (ref_unique _ _ _ _ _ _ I I' (eq_sym S)) as [-> ->]. f_equal. apply IH, E.
Qed.
Lemma no_unit_refused : forall u c, wu_trans u = None -> write_call u c = Ok (ST_INVALID_INPUT, u).
Proof. intros u c H. unfold write_call. rewrite H. reflexivity. Qed.
Lemma end_refused : forall extract a u, wu_trans u = None -> write_end_unit extract a u = Ok (ST_INVALID_INPUT, u).
Proof. intros extract a u H. unfold write_end_unit. rewrite H. reflexivity. Qed.
Lemma unit_first_declares : forall a u, usable a u ->
  hd_error (tag_attrs (unit_out a u) (start_args a u (uo_revision u))) = Some (declaration (prefix_of a u 0) SRC_URI).
Proof.
  intros a u (D & _). destruct (tag_first a u (start_args a u (uo_revision u))) as (r & E); [rewrite clear_decl; exact D|]. rewrite E. cbn [hd_error].
  unfold src_decl, declaration, prefix_of. f_equal. f_equal. destruct (prefix_at 0 (so_ns (unit_out a u))) eqn:P; change SRC with 0%nat; rewrite P; reflexivity.
Qed.

(** ** Concrete units *)
Definition fresh : wunit := WUnitObj (new_unit 0) None.
Definition named_unit (filename : bytes) : wunit :=
  WUnitObj (UObj 0 (USettings None (Some (txt "C")) (Some filename) None None None 0) (Some VERSION_STRING) (Some (txt "http://x?url=1")) [] 0 None
              None None false false [] None None None (0, 0)%Z (0, 0)%Z (-1)%Z ([], 0%Z)) None.
Definition plain_unit (filename : bytes) : wunit :=
  WUnitObj (UObj 0 (USettings None (Some (txt "C")) (Some filename) None None None 0) (Some VERSION_STRING) None [] 0 None
              None None false false [] None None None (0, 0)%Z (0, 0)%Z (-1)%Z ([], 0%Z)) None.
Lemma not_contains : forall s p, p <> [] -> strstr s p = None -> ~ contains s p.
Proof.
  intros s p N H (x & y & ->). revert H. induction x as [|c x IH]; cbn [app].
  - rewrite strstr_at. discriminate.
  - cbn [strstr]. destruct (beqb _ p); [discriminate|]. intros H. destruct (strstr (x ++ p ++ y) p); [discriminate|]. apply IH. reflexivity.
Qed.
Lemma usable_new : forall u, In u [fresh; named_unit (txt "a.c"); plain_unit (txt "a.c")] -> usable archive_create (wu u).
Proof.
  assert (X : forall s r url n, clean_opt s -> clean_opt r -> clean_opt url -> usable archive_create (UObj 0 (USettings None s n None None None 0) r url [] 0 None None None false false [] None None None (0, 0)%Z (0, 0)%Z (-1)%Z ([], 0%Z)) \/ ~ clean_opt n).
  { intros s r url n S R U. destruct n as [n|].
    - destruct (in_dec N.eq_dec 0 n) as [I|I]; [right; intros H; unfold clean_opt, clean, no_byte in H; rewrite Forall_forall in H; exact (H 0 I eq_refl)|].
      left. split; [reflexivity|]. split; [split; [constructor|apply not_contains; [discriminate|reflexivity]]|].
      assert (C : clean n) by (apply Forall_forall; intros c J ->; exact (I J)).
      unfold clean_unit. repeat (split; try assumption; try exact Logic.I); repeat constructor; clean_lit.
    - left. split; [reflexivity|]. split; [split; [constructor|apply not_contains; [discriminate|reflexivity]]|].
      unfold clean_unit. repeat (split; try assumption; try exact Logic.I); repeat constructor; clean_lit. }
  intros u I. assert (Y : clean_opt (Some (txt "C")) /\ clean_opt (Some (txt "http://x?url=1")) /\ clean_opt (Some VERSION_STRING) /\ clean_opt (Some (txt "a.c"))) by (repeat split; clean_lit).
  destruct Y as (Y1 & Y2 & Y3 & Y4).
  repeat (destruct I as [<-|I]; [match goal with |- usable _ (wu ?u) => match eval unfold fresh, new_unit, unit_create, named_unit, plain_unit in (wu u) with
    wu (WUnitObj (UObj _ (USettings _ ?s ?n _ _ _ _) ?r ?url _ _ _ _ _ _ _ _ _ _ _ _ _ _ _) _) => destruct (X s r url n) as [G|G]; [first [assumption|exact Logic.I]..|exact G|exfalso; apply G; first [assumption|exact Logic.I]] end end|]).
  destruct I.
Qed.
Lemma safe_new : url_safe archive_create (wu (named_unit (txt "a.c"))).
Proof.
  split; [|split; [intros []|discriminate]]. intros p I. vm_compute in I.
  repeat (destruct I as [<-|I]; [split; [unfold xml_name; cbn [fst]; repeat constructor; intros F; discriminate F|intros N; apply not_contains; [discriminate|vm_compute; reflexivity]]|]).
  destruct I.
Qed.
(** a file name that contains " url=" *)
Lemma url_in_filename : forall extract, exists v, write_by_element extract archive_create (plain_unit (txt "x url=y z")) [] = Ok (ST_OK, v) /\
  outer (wu v) = Ok (txt "<unit revision=""1.0.0"" language=""C"" filename=""x/>").
Proof. intros extract. eexists. split; [vm_compute; reflexivity|vm_compute; reflexivity]. Qed.
Lemma no_declaration : forall extract, write_by_element extract (run [SetOptions 0] archive_create) fresh [] = UB.
Proof. intros. vm_compute. reflexivity. Qed.
Lemma over_closed : forall extract, write_by_element extract archive_create fresh [EStart None (txt "b") None; EEnd; EEnd] = UB.
Proof. intros. vm_compute. reflexivity. Qed.
Lemma unit_attribute : forall extract, exists v, write_by_element extract archive_create fresh [EAttribute None (txt "at") None (txt "v"); EStart None (txt "b") None] = Ok (ST_OK, v) /\
  uo_srcml (wu v) = txt "<unit xmlns=""http://www.srcML.org/srcML/src"" revision=""1.0.0"">at=""v""><b/></unit>".
Proof. intros extract. eexists. split; [vm_compute; reflexivity|vm_compute; reflexivity]. Qed.
Lemma empty_name : forall extract, exists v, write_by_element extract archive_create fresh [EStart None [] None] = Ok (ST_INVALID_INPUT, v) /\ uo_read_body (wu v) = false.
Proof. intros extract. eexists. split; [vm_compute; reflexivity|vm_compute; reflexivity]. Qed.
Lemma constant_quote : forall extract, write_by_element extract archive_create fresh [EString false (txt """")] = UB.
Proof. intros. vm_compute. reflexivity. Qed.
Lemma pending_declaration : forall extract, exists v, write_by_element extract archive_create fresh
    [EString true (txt "t"); EAttribute (Some (txt "p")) (txt "n") (Some (txt "u")) (txt "v"); EStart None (txt "b") None] = Ok (ST_OK, v) /\
  inner (wu v) = Ok (txt "t<b xmlns:p=""u""/>").
Proof. intros extract. eexists. split; [vm_compute; reflexivity|vm_compute; reflexivity]. Qed.
