(** Extracting source code: concrete archives, and what goes wrong. *)
From Verif Require Import Base Text_Model Text_Spec Text_Proofs3 Api_Model Writer_Model Input_Model Extract_Model Extract_Spec Extract_Proofs.
Local Open Scope N_scope.

Definition same (_ s : bytes) : bytes := s.
Definition plain : extraction := Extraction 0 None None same.
Definition nth_of (n : Z) : extraction := Extraction n None None same.
Definition ua : sunit := SUnit (Some (txt "a.c")) (Some (txt "C")) None (txt "a;" ++ [10]).
Definition ub : sunit := SUnit (Some (txt "lib/b.cpp")) (Some (txt "C++")) None (txt "b;" ++ [10]).
Definition un : sunit := SUnit None (Some (txt "C")) None (txt "n;" ++ [10]).
Lemma separator_elsewhere : written 5 (fst (to_fd plain 5 [ua; ub])) = txt "a;" ++ [10] ++ txt "b;" ++ [10] /\ written 1 (fst (to_fd plain 5 [ua; ub])) = [0].
Proof. split; reflexivity. Qed.
Lemma negative_unit : to_fd (nth_of (-3)) 1 [ua; ub] = ([(1%Z, txt "a;" ++ [10])], Goes).
Proof. reflexivity. Qed.
Lemma only_first : forall x u l, x_unit x = 0%Z -> to_file x (u :: l) = to_file x [u].
Proof. intros x u l U. unfold to_file. rewrite U. reflexivity. Qed.
Lemma directory_ignores x y dir inputs : x_encode x = x_encode y -> to_directories x dir inputs = to_directories y dir inputs.
Proof.
  intros E. unfold to_directories. induction inputs as [|l r IH]; [reflexivity|]. cbn [flat_map]. rewrite IH. f_equal. clear r IH.
  induction l as [|u l IH]; [reflexivity|]. cbn [to_directory]. rewrite IH. destruct (su_name u); [|reflexivity]. unfold unparsed. now rewrite E.
Qed.
Lemma directory_unnamed x dir l : to_directory x dir (filter (fun u => match su_name u with Some _ => true | None => false end) l) = to_directory x dir l.
Proof. induction l as [|u l IH]; [reflexivity|]. cbn. destruct (su_name u) eqn:E; cbn; rewrite ?E; now rewrite IH. Qed.
Lemma two_archives : to_libarchive plain [[un]; [un]] = Ok [(txt "srcml_unit_1.c", txt "n;" ++ [10]); (txt "srcml_unit_1.c", txt "n;" ++ [10])].
Proof. reflexivity. Qed.
Lemma no_language : forall x l r, to_libarchive x ((l ++ [SUnit None None None []]) :: r) = UB.
Proof.
  intros x l r. cbn [to_libarchive]. assert (E : forall n, to_entries x n (l ++ [SUnit None None None []]) = UB); [|now rewrite E].
  induction l as [|u l IH]; intros n; cbn [app to_entries].
  - reflexivity.
  - destruct (entry_name (S n) u); [|reflexivity]. cbn [obind]. now rewrite IH.
Qed.
Lemma stored_encoding x u e : su_encoding u = Some e -> forall o, asked x EOL_AUTO o u (x_encode x e (su_source u)).
Proof. intros E o. exists e. rewrite E. split; reflexivity. Qed.
Lemma empty_or_none : fst (to_fd plain 1 []) = [] /\ written 1 (fst (to_fd plain 1 [SUnit None None None []])) = [].
Proof. split; reflexivity. Qed.
