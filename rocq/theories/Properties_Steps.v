(** The steps of a command (C55). *)
From Verif Require Import Base Steps_Model Steps_Spec Steps_Proofs Steps_Examples.
From Coq Require Import Sorted.

(** Every command has something to do: the "cannot decide what processing needed" of srcml.cpp:149 is never reached. *)
Theorem C55_something : forall r, steps r <> [].
Proof. exact something. Qed.
Print Assumptions C55_something.
(** Each step at most once, and in order: create, metadata, source, compression. *)
Theorem C55_order : forall r, StronglySorted (fun a b => place a < place b)%nat (steps r).
Proof. exact steps_order. Qed.
Print Assumptions C55_order.
Theorem C55_to_srcml : forall r, r_out r = SRCML -> displays r = false -> r_src r = false -> steps r = Create :: (if Nat.leb 1 (r_compressions r) then [Compress] else []).
Proof. exact to_srcml. Qed.
Print Assumptions C55_to_srcml.
Theorem C55_from_srcml : forall r, sources r <> [] -> Forall (eq SRCML) (sources r) -> r_out r <> SRCML -> r_xml r = false -> r_cat r = false -> r_test r = false -> r_transformations r = 0%nat ->
  displays r = false -> steps r = Extract :: (if Nat.leb 1 (r_compressions r) then [Compress] else []).
Proof. exact from_srcml. Qed.
Print Assumptions C55_from_srcml.
Theorem C55_source_first : forall r, In SRC (sources r) -> exists l, steps r = Create :: l.
Proof. exact source_first. Qed.
Print Assumptions C55_source_first.
(** When each step is done. Standard input is source code exactly with --language. *)
Theorem C55_create : forall r, In Create (steps r) <->
  r_test r = true \/ r_cat r = true \/ r_xml r = true \/ (1 <= r_transformations r)%nat \/ r_out r = SRCML \/ In SRC (sources r).
Proof. exact create_when. Qed.
Print Assumptions C55_create.
Theorem C55_standard_input : forall r i j, r_stdin r = Some i -> (i < length (r_inputs r))%nat ->
  nth_error (sources r) j = if Nat.eqb j i then Some (if r_language r then SRC else SRCML) else nth_error (r_inputs r) j.
Proof. exact stdin_kind. Qed.
Print Assumptions C55_standard_input.
Theorem C55_metadata : forall r, In Display (steps r) <-> r_insrcml r = true \/ r_query r = true \/ r_pretty r = true.
Proof. exact display_when. Qed.
Print Assumptions C55_metadata.
Theorem C55_source : forall r, In Extract (steps r) <-> r_src r = true \/ (r_out r <> SRCML /\ ~ In Create (steps r) /\ ~ In Display (steps r)).
Proof. exact extract_when. Qed.
Print Assumptions C55_source.
Theorem C55_compressed : forall r, In Compress (steps r) <-> (1 <= r_compressions r)%nat.
Proof. exact compress_when. Qed.
Print Assumptions C55_compressed.
(** With at most one step that does not close its pipe: every schedule of the steps is of bounded length, and one that cannot go on has all
    steps ended, with the output of the steps one after the other, whatever the capacity of the pipes and the lengths. *)
Theorem C55_finishes : forall (A : Type) (next : A -> action A) K r l i o, (0 < K)%nat -> composed next l i o (map closes (steps r)) ->
  (length (filter (fun w => negb (closes w)) (steps r)) <= 1)%nat ->
  exists N, forall n l' out', run next K (begins i l) [] n l' out' -> (n <= N)%nat /\ (stuck next K l' out' -> ended next l' /\ out' = o).
Proof. exact (@steps_finish). Qed.
Print Assumptions C55_finishes.
(** With more than one of metadata, source and compression: no schedule ends. The steps that can be done are done, and the command waits for ever. *)
Theorem C55_hangs_refuted : forall (A : Type) (next : A -> action A) K r l i o, composed next l i o (map closes (steps r)) ->
  (1 < length (filter (fun w => negb (closes w)) (steps r)))%nat ->
  exists N, forall n l' out', run next K (begins i l) [] n l' out' -> (n <= N)%nat /\ ~ ended next l'.
Proof. exact (@steps_hang). Qed.
Print Assumptions C55_hangs_refuted.
(** In particular, srcML to compressed source. *)
Theorem C55_compressed_source_refuted : forall (A : Type) (next : A -> action A) K r l i o, composed next l i o (map closes (steps r)) ->
  sources r <> [] -> Forall (eq SRCML) (sources r) -> r_out r <> SRCML -> r_xml r = false -> r_cat r = false -> r_test r = false -> r_transformations r = 0%nat ->
  displays r = false -> (1 <= r_compressions r)%nat ->
  exists N, forall n l' out', run next K (begins i l) [] n l' out' -> (n <= N)%nat /\ ~ ended next l'.
Proof. exact (@compressed_source). Qed.
Print Assumptions C55_compressed_source_refuted.
Example C55_example : forall i,
  steps to_xml_gz = [Create; Compress] /\ composed copy (map (fun w => Copying (closes w)) (steps to_xml_gz)) i i (map closes (steps to_xml_gz)) /\
  (length (filter (fun w => negb (closes w)) (steps to_xml_gz)) <= 1)%nat /\
  steps to_cpp_gz = [Extract; Compress] /\ composed copy (map (fun w => Copying (closes w)) (steps to_cpp_gz)) i i (map closes (steps to_cpp_gz)) /\
  (1 < length (filter (fun w => negb (closes w)) (steps to_cpp_gz)))%nat /\ steps to_src = [Extract] /\
  (exists n l' , run copy 1 (begins [97; 98]%N (map (fun w => Copying (closes w)) (steps to_xml_gz))) [] n l' [97; 98]%N /\ ended copy l').
Proof.
  intros i. split; [reflexivity|]. split; [apply copies|]. split; [cbn; auto|]. split; [reflexivity|]. split; [apply copies|]. split; [cbn; auto|]. split; [reflexivity|].
  exact copy_runs.
Qed.
