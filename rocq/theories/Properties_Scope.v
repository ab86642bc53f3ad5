(** C10: element helpers and new modes. Vocabulary: Scope_Spec.v, Parser_Spec.v. *)
From Verif Require Import Base Parser_Model Parser_Spec Parser_Modes2 Scope_Spec Parser_Scope.

(** A rule body under a helper, left normally or by an exception, leaves open what was open before it. *)
Theorem C10_scope : forall o c b s s1, guessing s = 0 -> guessing s1 = 0 -> modes s <> [] -> modes s1 <> [] ->
  (run o b s = Ret s1 -> exists s2, run o (Pscope c b Pdone) s = Ret s2 /\ scope_end c s s1 s2) /\
  (forall x, run o b s = Exn x s1 -> exists s2, run o (Pscope c b Pdone) s = Exn x s2 /\ scope_end c s s1 s2).
Proof. exact scope_ok. Qed.
Print Assumptions C10_scope.
(** A new mode: its own flags, the flags it was started under, the transparent ones of both; ending it gives back the stack. *)
Theorem C10_new_mode : forall m n s, modes s <> [] ->
  (inMode m (startNewMode n s) = true <-> N.land n m = m) /\
  inPrevMode m (startNewMode n s) = inMode m s /\
  (forall b, inTransparentMode (2 ^ b) (startNewMode n s) = N.testbit n b || inTransparentMode (2 ^ b) s) /\
  modes (popMode (startNewMode n s)) = modes s.
Proof. exact new_mode. Qed.
Print Assumptions C10_new_mode.
Theorem C10_previous_kept : forall m k s t r, modes s = t :: r -> r <> [] ->
  inPrevMode m s = N.eqb (N.land (flags_prev t) m) m /\
  (forall s', on_top (state_set k) s = Ret s' \/ on_top (state_clear k) s = Ret s' -> inPrevMode m s' = inPrevMode m s) /\
  (forall s', endElement s = s' -> inPrevMode m s' = inPrevMode m s).
Proof. exact previous_kept. Qed.
Print Assumptions C10_previous_kept.
(** a body that starts two modes with elements and fails *)
Definition body := Pact (AnewMode MODE_LIST) (Pact (Astart (Ename 1)) (Pact (AnewMode MODE_STATEMENT) (Pact (Astart (Ename 2)) (Pact (Astart (Ename 3)) (Pthrow Fault))))).
Example C10_scope_example : exists s s1, s = construct [] /\ guessing s = 0 /\ run (POpts true false) body s = Exn Fault s1 /\ guessing s1 = 0 /\ modes s <> [] /\
  length (modes s1) = 2 + length (modes s) /\
  exists s2, run (POpts true false) (Pscope Complete body Pdone) s = Exn Fault s2 /\ modes s2 = modes s /\
    tags s2 = tags s1 ++ [(TE (Ename 3), Kend); (TE (Ename 2), Kend); (TE (Ename 1), Kend)].
Proof.
  eexists. eexists. split; [reflexivity|]. split; [vm_compute; reflexivity|]. split; [vm_compute; reflexivity|]. split; [reflexivity|]. split; [vm_compute; discriminate|].
  split; [vm_compute; reflexivity|]. eexists. split; [vm_compute; reflexivity|]. split; vm_compute; reflexivity.
Qed.
