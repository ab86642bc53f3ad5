(** C37: the position attributes of the elements that several archives write. *)
From Verif Require Import Base Text_Model Text_Spec Thread_Model Thread_Spec Thread_Proofs.
Local Open Scope N_scope.

(** Threads that each write for one archive, or for archives that agree on the option and the prefix: every element of every thread has the
    positions its own archive asks for, whatever the other threads do in between. *)
Theorem C37_same_partial : forall l, Forall (fun e => in_range (st_pos e)) l ->
  (forall e e', In e l -> In e' l -> st_thread e = st_thread e' -> st_output e = st_output e') ->
  exists out, write_starts (fun _ => new_thread) l = Ok out /\ length out = length l /\
    forall n e x, nth_error l n = Some e -> nth_error out n = Some x ->
      wanted (op_position (st_output e)) (op_prefix (st_output e)) (st_empty e) (st_pos e) x.
Proof. exact threads_same. Qed.
Print Assumptions C37_same_partial.
(** For any threads and archives: the option is that of the first element the thread ever wrote, the prefix that of the first element with
    positions. *)
Theorem C37_any_partial : forall l, Forall (fun e => in_range (st_pos e)) l ->
  exists out, write_starts (fun _ => new_thread) l = Ok out /\ length out = length l /\
    forall n e x, nth_error l n = Some e -> nth_error out n = Some x ->
      let before := same_thread e (firstn n l) in
      wanted (op_position (first_output before e)) (op_prefix (first_positioned before e)) (st_empty e) (st_pos e) x.
Proof. exact threads_ok. Qed.
Print Assumptions C37_any_partial.

Definition at_ (a b c d : N) := Position a b c d.
Definition plain := Output false (txt "pos").
Definition with_pos := Output true (txt "pos").
Definition with_p := Output true (txt "p").
(** Missing: archives of one thread that differ.  After an archive without positions, one with the option gets none; after an archive with
    them, one without the option gets them. *)
Theorem C37_option_refuted :
  write_starts (fun _ => new_thread) [Started 0 plain false (at_ 1 1 1 3); Started 0 with_pos false (at_ 1 1 1 3)] = Ok [[]; []] /\
  write_starts (fun _ => new_thread) [Started 0 with_pos false (at_ 1 1 1 3)] = Ok [txt " pos:start=""1:1"" pos:end=""1:3"""] /\
  write_starts (fun _ => new_thread) [Started 0 with_pos false (at_ 1 1 1 3); Started 0 plain false (at_ 1 1 1 3)] =
    Ok [txt " pos:start=""1:1"" pos:end=""1:3"""; txt " pos:start=""1:1"" pos:end=""1:3"""].
Proof. split; [|split]; vm_compute; reflexivity. Qed.
Print Assumptions C37_option_refuted.
(** The attributes of the second archive have the first one's prefix, which the second one does not declare. *)
Theorem C37_prefix_refuted :
  write_starts (fun _ => new_thread) [Started 0 with_pos false (at_ 1 1 1 3); Started 0 with_p false (at_ 2 1 2 9)] =
    Ok [txt " pos:start=""1:1"" pos:end=""1:3"""; txt " pos:start=""2:1"" pos:end=""2:9"""] /\
  write_starts (fun _ => new_thread) [Started 0 with_p false (at_ 2 1 2 9)] = Ok [txt " p:start=""2:1"" p:end=""2:9"""].
Proof. split; vm_compute; reflexivity. Qed.
Print Assumptions C37_prefix_refuted.
(** Two threads in turn, one with each prefix; an element without extent and an empty one have no positions. *)
Example C37_example : let l := [Started 0 with_pos false (at_ 1 1 12 3); Started 1 with_p false (at_ 7 1 7 1); Started 0 with_pos false (at_ 2 5 2 4);
    Started 2 plain false (at_ 1 1 1 1); Started 1 with_p true (at_ 1 1 1 1); Started 0 with_pos false (at_ 3 1 3 1)] in
  Forall (fun e => in_range (st_pos e)) l /\
  (forall e e', In e l -> In e' l -> st_thread e = st_thread e' -> st_output e = st_output e') /\
  write_starts (fun _ => new_thread) l = Ok [txt " pos:start=""1:1"" pos:end=""12:3"""; txt " p:start=""7:1"" p:end=""7:1"""; []; []; []; txt " pos:start=""3:1"" pos:end=""3:1"""].
Proof.
  split; [repeat constructor|]. split; [|vm_compute; reflexivity].
  intros e e' I I'. cbn [In] in I, I'. decompose [or] I; decompose [or] I'; subst; cbn; intros E; try discriminate E; try reflexivity; try tauto.
Qed.
