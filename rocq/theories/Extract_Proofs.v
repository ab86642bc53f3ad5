(** Extracting source code: proofs. *)
From Verif Require Import Base Text_Model Text_Spec Text_Proofs3 Api_Model Writer_Model Input_Model Pretty_Proofs2 Extract_Model Extract_Spec.
Local Open Scope N_scope.

Lemma asked_unparsed x e enc u : asked x (or_auto e) enc u (unparsed x e enc u).
Proof. eexists. split; [reflexivity|]. unfold default_to. destruct (su_encoding u), enc; reflexivity. Qed.
Lemma written_app fd a b : written fd (a ++ b) = written fd a ++ written fd b.
Proof. unfold written. now rewrite filter_app, map_app, concat_app. Qed.
Definition text (x : extraction) (u : sunit) : bytes := unparsed x (x_eol x) (x_encoding x) u.
(** ** Standard output *)
Lemma units_all x : x_unit x = 0%Z -> forall l n, snd (units_out x 1 n l) = Goes /\
  exists out, separated out (map (text x) l) /\ written 1 (fst (units_out x 1 n l)) = (match n, l with S _, _ :: _ => [0] | _, _ => [] end) ++ out.
Proof.
  intros U. induction l as [|u l IH]; intros n; cbn [units_out]; rewrite U; cbn [Z.eqb].
  - split; [reflexivity|]. exists []. split; [constructor|]. now destruct n.
  - destruct (IH (S n)) as (G & out & S & W). split; [exact G|]. cbn [fst snd]. rewrite written_app, W.
    assert (H : written 1 ((match n with O => [] | Datatypes.S _ => [(1%Z, [0])] end) ++ [(1%Z, text x u)]) = (match n with O => [] | Datatypes.S _ => [0] end) ++ text x u).
    { destruct n; unfold written; cbn; now rewrite app_nil_r. }
    change (unparsed x (x_eol x) (x_encoding x) u) with (text x u). rewrite H. destruct l as [|v l].
    + exists (text x u). inversion S. split; [constructor|]. destruct n; now rewrite !app_nil_r.
    + exists (text x u ++ 0 :: out). split; [constructor; exact S|]. destruct n; now rewrite <- ?app_assoc.
Qed.
Lemma texts_asked x l : Forall2 (asked x (or_auto (x_eol x)) (x_encoding x)) l (map (text x) l).
Proof. induction l; constructor; [apply asked_unparsed|assumption]. Qed.
Theorem stdout_all x l : x_unit x = 0%Z -> snd (to_fd x 1 l) = Goes /\
  exists texts, Forall2 (asked x (or_auto (x_eol x)) (x_encoding x)) l texts /\ separated (written 1 (fst (to_fd x 1 l))) texts.
Proof.
  intros U. unfold to_fd. rewrite U. cbn [Z.sub Z.to_nat Z.opp Z.add skips]. destruct (units_all x U l 0) as (G & out & S & W). split; [exact G|].
  exists (map (text x) l). split; [apply texts_asked|]. rewrite W. exact S.
Qed.
Lemma nul_split a b out out' : no_byte 0 a -> no_byte 0 b -> a ++ 0 :: out = b ++ 0 :: out' -> a = b /\ out = out'.
Proof.
  revert b. induction a as [|x a IH]; intros [|y b] A B E; cbn in E.
  - injection E as ->. auto.
  - injection E as <- _. exfalso. exact (Forall_inv B eq_refl).
  - injection E as -> _. exfalso. exact (Forall_inv A eq_refl).
  - injection E as -> E. destruct (IH b (Forall_inv_tail A) (Forall_inv_tail B) E) as [-> ->]. auto.
Qed.
Lemma nul_none a b out : no_byte 0 a -> a <> b ++ 0 :: out.
Proof. intros A ->. apply Forall_app in A as [_ A]. now apply Forall_inv in A. Qed.
Theorem separated_unique out l : separated out l -> forall l', separated out l' -> l <> [] -> l' <> [] -> Forall (no_byte 0) l -> Forall (no_byte 0) l' -> l = l'.
Proof.
  induction 1 as [|a|a out b l S IH]; intros l' S' N N' F F'; [congruence| |]; inversion S' as [|a'|a' out' b' m' S2]; subst; try congruence.
  - exfalso. eapply nul_none; [exact (Forall_inv F)|symmetry; eassumption || reflexivity].
  - exfalso. eapply nul_none; [exact (Forall_inv F')|reflexivity].
  - match goal with E : _ ++ 0 :: _ = _ ++ 0 :: _ |- _ => destruct (nul_split _ _ _ _ (Forall_inv F') (Forall_inv F) E) as [-> ->] end.
    f_equal. apply IH; [assumption|discriminate|discriminate|exact (Forall_inv_tail F)|exact (Forall_inv_tail F')].
Qed.
(** ** One unit *)
Lemma skips_nth n : forall l, match nth_error l n with Some u => exists r, skips n l = Some (u :: r) | None => skips n l = None \/ skips n l = Some [] end.
Proof. induction n as [|n IH]; intros [|u l]; cbn; eauto. apply IH. Qed.
Theorem stdout_unit x n l : x_unit x = Z.of_nat (S n) ->
  match nth_error l n with
  | Some u => exists t, asked x (or_auto (x_eol x)) (x_encoding x) u t /\ forall fd, to_fd x fd l = ([(fd, t)], Goes)
  | None => forall fd, to_fd x fd l = ([], Exits)
  end.
Proof.
  intros U. assert (E : Z.to_nat (x_unit x - 1) = n) by (rewrite U; lia). assert (Z : (x_unit x =? 0)%Z = false) by (rewrite U; lia).
  unfold to_fd. rewrite E. assert (X := skips_nth n l). destruct (nth_error l n) as [u|].
  - destruct X as (r & ->). exists (text x u). split; [apply asked_unparsed|]. intros fd. cbn [units_out]. now rewrite Z.
  - intros fd. destruct X as [-> | ->]; [reflexivity|]. cbn [units_out]. now rewrite Z.
Qed.
Theorem file_unit x n l : (x_unit x = Z.of_nat (S n) \/ x_unit x = 0%Z /\ n = 0%nat) ->
  match nth_error l n with
  | Some u => exists t, asked x (or_auto (x_eol x)) (x_encoding x) u t /\ to_file x l = Some t
  | None => to_file x l = None
  end.
Proof.
  intros U. assert (E : Z.to_nat (x_unit x - 1) = n) by (destruct U as [->|[-> ->]]; [lia|reflexivity]).
  unfold to_file. rewrite E. assert (X := skips_nth n l). destruct (nth_error l n) as [u|].
  - destruct X as (r & ->). exists (text x u). split; [apply asked_unparsed|reflexivity].
  - destruct X as [-> | ->]; reflexivity.
Qed.
(** ** Directory *)
Lemma output_file_inj dir f g : output_file dir f = output_file dir g -> f = g.
Proof. unfold output_file. cbn. intros E. apply app_inv_head in E. now injection E. Qed.
Lemma directory_app x dir a b : to_directory x dir (a ++ b) = to_directory x dir a ++ to_directory x dir b.
Proof. induction a as [|u a IH]; [reflexivity|]. cbn. destruct (su_name u); cbn; now rewrite IH. Qed.
Lemma directories_concat x dir inputs : to_directories x dir inputs = to_directory x dir (concat inputs).
Proof. induction inputs as [|l r IH]; [reflexivity|]. cbn. rewrite directory_app. now f_equal. Qed.
Lemma directory_in x dir l p f c : In (p, f, c) (to_directory x dir l) -> exists u n, In u l /\ su_name u = Some n /\ f = output_file dir n /\ p = output_path dir n /\ asked x EOL_AUTO None u c.
Proof.
  induction l as [|u l IH]; [intros []|]. cbn. destruct (su_name u) as [n|] eqn:E.
  - intros [H|H]; [injection H as <- <- <-; exists u, n; repeat split; auto; apply (asked_unparsed x None None)|]. destruct (IH H) as (v & m & V & R). exists v, m. auto.
  - intros H. destruct (IH H) as (v & m & V & R). exists v, m. auto.
Qed.
Theorem directory_files x dir inputs : forall a u n b, concat inputs = a ++ u :: b -> su_name u = Some n -> (forall v, In v b -> su_name v <> Some n) ->
  exists c, asked x EOL_AUTO None u c /\ file_at (output_file dir n) (to_directories x dir inputs) c.
Proof.
  intros a u n b E N L. exists (unparsed x None None u). split; [apply (asked_unparsed x None None)|]. rewrite directories_concat, E, directory_app. cbn [to_directory]. rewrite N.
  eexists _, _, _. split; [reflexivity|]. intros p c H. apply directory_in in H as (v & m & V & M & F & _). apply output_file_inj in F. subst m. now apply (L v V).
Qed.
Theorem directory_only x dir inputs : forall f c, file_at f (to_directories x dir inputs) c -> exists u n, In u (concat inputs) /\ su_name u = Some n /\ f = output_file dir n /\ asked x EOL_AUTO None u c.
Proof.
  intros f c (a & p & b & E & _). rewrite directories_concat in E. assert (I : In (p, f, c) (to_directory x dir (concat inputs))) by (rewrite E; apply in_elt).
  apply directory_in in I as (u & n & U & N & F & _ & A). eauto 8.
Qed.
Theorem directory_made x dir inputs : forall a p f c b, to_directories x dir inputs = a ++ (p, f, c) :: b -> exists n, f = output_file dir n /\ p = output_path dir n.
Proof.
  intros a p f c b E. rewrite directories_concat in E. assert (I : In (p, f, c) (to_directory x dir (concat inputs))) by (rewrite E; apply in_elt).
  apply directory_in in I as (u & n & U & N & F & P & A). eauto.
Qed.
(** ** Archive *)
Lemma std_ok l : exists e, std_extension (Some l) = Ok e /\ extension l e.
Proof.
  unfold std_extension. eexists. split; [reflexivity|]. unfold extension. cbn [In].
  destruct (beqb l (txt "C")) eqn:E1; [apply beqb_true in E1; auto|]. destruct (beqb l (txt "C++")) eqn:E2; [apply beqb_true in E2; auto|].
  destruct (beqb l (txt "C#")) eqn:E3; [apply beqb_true in E3; auto|]. destruct (beqb l (txt "Java")) eqn:E4; [apply beqb_true in E4; auto 6|].
  apply beqb_false in E1, E2, E3, E4. right. right. right. right. split; [|reflexivity]. intuition congruence.
Qed.
Lemma entry_named n u : (su_name u = None \/ su_name u = Some [] -> su_language u <> None) -> N.of_nat n < 10 ^ 64 -> exists f, entry_name n u = Ok f /\ named n u f.
Proof.
  intros L B. unfold entry_name, named, default_to. destruct (su_name u) as [[|c r]|]; [| eauto |].
  all: destruct (su_language u) as [l|]; [|exfalso; apply L; auto]; destruct (std_ok l) as (e & -> & X); eexists; split; [reflexivity|]; eexists _, _, _; split; [reflexivity|]; split; [exact X|]; split; [apply dec_of_ok; exact B|reflexivity].
Qed.
Lemma upto_nul_all s : no_byte 0 s -> upto_nul s = s.
Proof. induction 1 as [|c s C F IH]; [reflexivity|]. cbn. apply N.eqb_neq in C. now rewrite C, IH. Qed.
Lemma entries_ok x l : forall n, Forall (fun u => su_name u = None \/ su_name u = Some [] -> su_language u <> None) l -> N.of_nat (n + length l) < 10 ^ 64 ->
  exists es, to_entries x n l = Ok es /\ numbered (archived x) (S n) l es.
Proof.
  induction l as [|u l IH]; intros n F B; [eexists; split; [reflexivity|constructor]|]. cbn [length] in B.
  destruct (entry_named (S n) u (Forall_inv F)) as (f & E & N); [lia|]. destruct (IH (S n) (Forall_inv_tail F)) as (es & E' & NS); [cbn [plus]; lia|].
  cbn [to_entries]. rewrite E. cbn [obind]. rewrite E'. cbn [obind]. eexists. split; [reflexivity|]. constructor; [|exact NS]. split; [exact N|].
  exists (unparsed x None None u). split; [apply (asked_unparsed x None None)|]. cbn. apply upto_nul_all.
Qed.
Theorem libarchive_entries x inputs : Forall (Forall (fun u => su_name u = None \/ su_name u = Some [] -> su_language u <> None)) inputs ->
  Forall (fun l => N.of_nat (length l) < 10 ^ 64) inputs ->
  exists ess, to_libarchive x inputs = Ok (concat ess) /\ Forall2 (numbered (archived x) 1) inputs ess.
Proof.
  induction inputs as [|l r IH]; intros F B; [exists []; split; [reflexivity|constructor]|].
  destruct (entries_ok x l 0 (Forall_inv F)) as (es & E & N); [exact (Forall_inv B)|]. destruct (IH (Forall_inv_tail F) (Forall_inv_tail B)) as (ess & E' & NS).
  exists (es :: ess). cbn [to_libarchive concat]. rewrite E. cbn [obind]. rewrite E'. split; [reflexivity|now constructor].
Qed.
(** names made up are different *)
Lemma digits_dot d d' e e' : Forall (fun c => 48 <= c <= 57) d -> Forall (fun c => 48 <= c <= 57) d' -> (e = [] \/ exists r, e = 46 :: r) -> (e' = [] \/ exists r, e' = 46 :: r) ->
  d ++ e = d' ++ e' -> d = d'.
Proof.
  revert d'. induction d as [|a d IH]; intros [|b d'] D D' E E' H; [reflexivity| | |].
  - exfalso. cbn in H. pose proof (Forall_inv D') as L. destruct E as [-> |[r ->]]; [discriminate|]. injection H as <- _. cbv beta in L. lia.
  - exfalso. cbn in H. pose proof (Forall_inv D) as L. destruct E' as [-> |[r ->]]; [discriminate|]. injection H as -> _. cbv beta in L. lia.
  - injection H as -> H. f_equal. exact (IH d' (Forall_inv_tail D) (Forall_inv_tail D') E E' H).
Qed.
Lemma extension_dot l e : extension l e -> e = [] \/ exists r, e = 46 :: r.
Proof. intros [[_ ->]|[[_ ->]|[[_ ->]|[[_ ->]|[_ ->]]]]]; cbn; eauto. Qed.
Theorem unnamed_distinct n m u v f : (su_name u = None \/ su_name u = Some []) -> (su_name v = None \/ su_name v = Some []) -> named n u f -> named m v f -> n = m.
Proof.
  intros U V N M. unfold named in *.
  assert (N' : exists l e d, su_language u = Some l /\ extension l e /\ decimal d (N.of_nat n) /\ f = txt "srcml_unit_" ++ d ++ e) by (destruct U as [U|U]; rewrite U in N; exact N).
  assert (M' : exists l e d, su_language v = Some l /\ extension l e /\ decimal d (N.of_nat m) /\ f = txt "srcml_unit_" ++ d ++ e) by (destruct V as [V|V]; rewrite V in M; exact M).
  destruct N' as (l & e & d & _ & E & (_ & D & DV & _) & ->). destruct M' as (l' & e' & d' & _ & E' & (_ & D' & DV' & _) & H).
  apply app_inv_head in H. assert (d = d') by (eapply digits_dot; [exact D|exact D'|eapply extension_dot; exact E|eapply extension_dot; exact E'|exact H]). subst d'. lia.
Qed.
