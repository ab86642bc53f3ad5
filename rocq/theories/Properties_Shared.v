(** C44: several archives read at the same time. *)
From Verif Require Import Base Text_Model Api_Model Writer_Model Handoff_Model Handoff_Spec Sax_Model Sax_Spec Sax_Proofs7 Stream_Spec Properties_Stream Shared_Model Shared_Spec Shared_Proofs.

(** A reader that was the last to start: whatever the other readers of the process do, its caller gets the units of the document, with their own text. *)
Theorem C44_archive_partial : forall l i d err ops ls s, last_to_open l i (archive_events d) -> archive_ok d -> whole d = true -> calm ls ->
  steps sax_with ls (open (parse_in l i (archive_events d) err) ops) = Some s ->
  fault s = false /\ (cl s = CGone -> exists bs, Forall2 (body_is (root_namespaces (a_root d))) (map fst (a_units d)) bs /\ results s = reads (with_bodies (map fst (a_units d)) bs) ops).
Proof. exact archive_alone. Qed.
Print Assumptions C44_archive_partial.
(** It is never left waiting. *)
Theorem C44_archive_ends_partial : forall l i d err ops ls s, last_to_open l i (archive_events d) -> archive_ok d -> whole d = true -> calm ls ->
  steps sax_with ls (open (parse_in l i (archive_events d) err) ops) = Some s ->
  cl s = CGone \/ exists x s', (x = Caller \/ x = Parser) /\ step sax_with x s = Some s'.
Proof. exact archive_alone_ends. Qed.
Print Assumptions C44_archive_ends_partial.
Theorem C44_solo_partial : forall l i d err ops ls s, last_to_open l i (solo_events d) -> solo_ok d -> calm ls ->
  steps sax_with ls (open (parse_in l i (solo_events d) err) ops) = Some s ->
  (cl s = CGone -> exists b, solo_is d b /\ results s = reads [(t_attrs (s_tag d), Some b)] ops) /\
  (cl s = CGone \/ exists x s', (x = Caller \/ x = Parser) /\ step sax_with x s = Some s').
Proof. exact solo_alone. Qed.
Print Assumptions C44_solo_partial.

(** Missing: the other readers.  Whatever the document, the calls and the execution: if another reader starts before the end of the first
    unit is handled, no unit of it is ever returned with its srcML. *)
Theorem C44_lost_refuted : forall l i evs err ops ls s,
  (forall n raw, nth_error evs n = Some (XEnd (txt "unit") raw) -> lost_at l i n) ->
  steps sax_with ls (open (parse_in l i evs err) ops) = Some s -> forall h b, ~ In (RUnit h (Some b)) (results s).
Proof. exact lost_reader. Qed.
Print Assumptions C44_lost_refuted.
(** An archive is opened, up to its first unit; another archive is opened; then the first unit is read: the call never returns. *)
Definition in_turn : list act := [Opens 0; Handles 0; Handles 0; Handles 0; Opens 1] ++ repeat (Handles 0) 20.
Definition in_order : list act := [Opens 1; Handles 1] ++ Opens 0 :: repeat (Handles 0) 13 ++ [Opens 2; Handles 1].
Theorem C44_hang_refuted : exists ls s, calm ls /\ (forall n raw, nth_error (archive_events two) n = Some (XEnd (txt "unit") raw) -> lost_at in_turn 0 n) /\
  steps sax_with ls (open (parse_in in_turn 0 (archive_events two) false) [Read]) = Some s /\ results s = [] /\ left_waiting s /\
  forall l s', step sax_with l s = Some s' -> l = SpuriousC.
Proof.
  exists (caller_first sax_with 100 (open (parse_in in_turn 0 (archive_events two) false) [Read])). eexists. split; [apply caller_first_calm|].
  split.
  { intros n raw E. exists [Opens 0; Handles 0; Handles 0; Handles 0], (repeat (Handles 0) 20), 1. split; [reflexivity|]. split; [discriminate|].
    split; [intros K; apply repeat_spec in K; discriminate K|]. destruct n as [|[|[|n]]]; try discriminate E. cbn. lia. }
  split; [vm_compute; reflexivity|]. split; [reflexivity|]. split; [split; [eexists; reflexivity|reflexivity]|]. intros [| | |] s' E; try discriminate E. reflexivity.
Qed.
Print Assumptions C44_hang_refuted.
(** The same archive read to its end among others, before and after. *)
Example C44_example : last_to_open in_order 0 (archive_events two) /\ archive_ok two /\ whole two = true /\ exists ls s, calm ls /\
  steps sax_with ls (open (parse_in in_order 0 (archive_events two) false) [Read; Read; Read]) = Some s /\ cl s = CGone /\
  map (fun r => match r with RUnit _ (Some b) => Some (b_srcml b) | _ => None end) (results s) =
    [Some (in_root (txt "a") ++ txt "<name>x</name>" ++ nl ++ txt "</unit>"); Some (in_root (txt "b") ++ txt "</unit>"); None].
Proof.
  split; [|split; [exact (proj1 C27_example_whole)|split; [reflexivity|]]].
  - split; [reflexivity|]. exists [Opens 1; Handles 1], (repeat (Handles 0) 13), [Opens 2; Handles 1]. split; [reflexivity|].
    split; [intros [K|[K|[]]]; discriminate K|]. split; [intros [K|[K|[]]]; discriminate K|]. intros j K. apply repeat_spec in K. discriminate K.
  - exists (caller_first sax_with 200 (open (parse_in in_order 0 (archive_events two) false) [Read; Read; Read])). eexists. split; [apply caller_first_calm|].
    split; [vm_compute; reflexivity|]. split; vm_compute; reflexivity.
Qed.
