(** The steps of a command: which are chosen, and concrete ones. *)
From Verif Require Import Base Steps_Model Steps_Spec Steps_Proofs.
From Coq Require Import Lia Sorted.

(** ** Which steps *)
(** the order of srcml.cpp:115-121, each at most once *)
Definition place (w : work) : nat := match w with Create => 1 | Display => 2 | Extract => 3 | Compress => 4 end.
Lemma steps_order r : StronglySorted (fun a b => place a < place b)%nat (steps r).
Proof. unfold steps. destruct (creates r), (displays r), (extracts r), (compresses r); cbn; repeat constructor. Qed.
(** source code, srcML output: created, and nothing else before it is compressed *)
Lemma to_srcml r : r_out r = SRCML -> displays r = false -> r_src r = false -> steps r = Create :: (if Nat.leb 1 (r_compressions r) then [Compress] else []).
Proof. intros O D S. unfold steps, extracts, creates, compresses. rewrite O, D, S. cbn. rewrite !orb_true_r. reflexivity. Qed.
(** srcML only, a destination that is not srcML, no other request: extracted *)
Lemma from_srcml r : sources r <> [] -> Forall (eq SRCML) (sources r) -> r_out r <> SRCML -> r_xml r = false -> r_cat r = false -> r_test r = false -> r_transformations r = 0%nat ->
  displays r = false -> steps r = Extract :: (if Nat.leb 1 (r_compressions r) then [Compress] else []).
Proof.
  intros _ F O X C T N D. assert (E : existsb is_SRC (sources r) = false) by (clear -F; induction F as [|x l <- F IH]; [reflexivity|exact IH]).
  unfold steps, extracts, creates, compresses, transforms. rewrite X, C, T, N, D, E. destruct (r_out r); try congruence; cbn; rewrite orb_true_r; reflexivity.
Qed.
(** source code is made srcML first *)
Lemma source_first r : In SRC (sources r) -> exists l, steps r = Create :: l.
Proof.
  intros I. assert (E : existsb is_SRC (sources r) = true) by (apply existsb_exists; exists SRC; auto). unfold steps, creates. rewrite E, !orb_true_r. cbn. eauto.
Qed.

(** ** Processes: a copy, that closes or not what it writes to *)
Inductive copier := Copying (c : bool) | Putting (c : bool) (b : N) | Done (c : bool).
Definition copy (s : copier) : action copier :=
  match s with
  | Copying c => Read (fun x => match x with Some b => Putting c b | None => Done c end)
  | Putting c b => Write b (Copying c)
  | Done true => Close (Done false)
  | Done false => End
  end.
Lemma copy_does c i : exists n, does copy (Copying c) i i c true n.
Proof.
  induction i as [|b i (n & IH)].
  - destruct c; eexists; (eapply DEof; [reflexivity|]); [eapply DClose; [reflexivity|]|]; apply DEnd; reflexivity.
  - eexists. eapply DRead; [reflexivity|]. eapply DWrite; [reflexivity|]. exact IH.
Qed.
Lemma copies l i : composed copy (map (fun w => Copying (closes w)) l) i i (map closes l).
Proof. induction l as [|w l IH]; [constructor|]. destruct (copy_does (closes w) i) as (n & D). cbn. econstructor; eassumption. Qed.
(** a source file to out.xml.gz; an archive to a.cpp.gz; an archive to source on standard output *)
Definition to_xml_gz : request := Request [SRC] SRCML 1 false false false false false false false 0 None false.
Definition to_cpp_gz : request := Request [SRCML] SRC 1 false false false false false false false 0 None false.
Definition to_src : request := Request [SRCML] INDETERMINATE 0 false false false false false false false 0 None false.
Lemma compressed_source {A : Type} (next : A -> action A) K r l i o : composed next l i o (map closes (steps r)) ->
  sources r <> [] -> Forall (eq SRCML) (sources r) -> r_out r <> SRCML -> r_xml r = false -> r_cat r = false -> r_test r = false -> r_transformations r = 0%nat ->
  displays r = false -> (1 <= r_compressions r)%nat ->
  exists N, forall n l' out', run next K (begins i l) [] n l' out' -> (n <= N)%nat /\ ~ ended next l'.
Proof.
  intros C N F O X T1 T2 T3 D L. apply (steps_hang next K r l i o C). rewrite (from_srcml r) by assumption. destruct (Nat.leb_spec 1 (r_compressions r)); [cbn; auto|lia].
Qed.
Lemma copy_runs : exists n l' , run copy 1 (begins [97; 98]%N (map (fun w => Copying (closes w)) (steps to_xml_gz))) [] n l' [97; 98]%N /\ ended copy l'.
Proof.
  eexists _, _. split.
  - cbn. change [97; 98]%N with (([] ++ [97]) ++ [98])%N at 2.
    eapply RMore; [eapply MRead; reflexivity|]. eapply RMore; [eapply MWrite; [reflexivity|cbn; auto]|]. eapply RMore; [apply MOther; eapply MRead; reflexivity|].
    eapply RMore; [apply MOther; eapply MLast; reflexivity|]. eapply RMore; [eapply MRead; reflexivity|]. eapply RMore; [eapply MWrite; [reflexivity|cbn; auto]|].
    eapply RMore; [eapply MEnd; reflexivity|]. eapply RMore; [eapply MClose; reflexivity|]. eapply RMore; [apply MOther; eapply MRead; reflexivity|].
    eapply RMore; [apply MOther; eapply MLast; reflexivity|]. eapply RMore; [apply MOther; eapply MEnd; reflexivity|]. apply RNone.
  - intros p s [X|[X|[]]]; injection X as <- <-; reflexivity.
Qed.
