(** C41, C42: file lists and names. *)
From Verif Require Import Base Text_Model Text_Spec Text_Proofs Text_Proofs2 Text_Proofs3 Writer_Model Writer_Spec Writer_Proofs2 Writer_Proofs10 Input_Model Input_Spec Input_Proofs.

(** * Trimming *)
Lemma white_in c : is_white c = true <-> white c.
Proof. unfold is_white, white. rewrite existsb_exists. split; [intros [x [I E]]; apply N.eqb_eq in E; subst x; exact I|intros I; exists c; split; [exact I|apply N.eqb_refl]]. Qed.
Lemma drop_white_ok s : exists a, s = a ++ drop_white s /\ Forall white a /\ match drop_white s with [] => True | c :: _ => ~ white c end.
Proof.
  induction s as [|c s [a [E [F H]]]]; [exists []; repeat split; constructor|]. cbn [drop_white]. destruct (is_white c) eqn:W.
  - exists (c :: a). cbn [app]. split; [f_equal; exact E|]. split; [constructor; [apply white_in; exact W|exact F]|exact H].
  - exists []. repeat split; [constructor|]. intros K. apply white_in in K. congruence.
Qed.
Lemma trim_ok s : trimmed s (trim s).
Proof.
  unfold trim. destruct (drop_white_ok s) as [a [E [F H]]]. destruct (drop_white_ok (rev (drop_white s))) as [b [E' [F' H']]].
  set (m := drop_white s) in *. set (k := drop_white (rev m)) in *. assert (M : m = rev k ++ rev b) by (rewrite <- rev_app_distr, <- E', rev_involutive; reflexivity).
  exists a, (rev b). split; [rewrite <- M; exact E|]. split; [exact F|]. split; [apply Forall_rev; exact F'|].
  destruct (rev k) as [|c r] eqn:R; [exact I|]. split.
  - rewrite M in H. cbn [app] in H. exact H.
  - assert (K : k = rev (c :: r)) by (rewrite <- R, rev_involutive; reflexivity). rewrite K in H'.
    destruct (exists_last (l := c :: r) ltac:(discriminate)) as [l' [x Ex]]. rewrite Ex in *. rewrite rev_app_distr in H'. cbn [rev app] in H'. rewrite last_last. exact H'.
Qed.
Lemma white_trimmed s : Forall white s -> trimmed s [].
Proof. intros F. exists s, []. rewrite app_nil_r. repeat split; [exact F|constructor]. Qed.
Lemma trim_line l n : trimmed (l ++ [10%N]) n -> trimmed l n.
Proof.
  intros [a [b [E [Fa [Fb H]]]]]. destruct b as [|x b] using rev_ind.
  - rewrite app_nil_r in E. destruct n as [|c n].
    + rewrite app_nil_r in E. subst a. apply Forall_app in Fa. exact (white_trimmed l (proj1 Fa)).
    + exfalso. destruct H as [_ H]. destruct (exists_last (l := c :: n) ltac:(discriminate)) as [l' [x Ex]]. rewrite Ex in E, H. rewrite last_last in H. rewrite app_assoc in E. apply app_inj_tail in E. destruct E as [_ E].
      apply H. rewrite <- E. right. left. reflexivity.
  - clear IHb. rewrite !app_assoc in E. apply app_inj_tail in E. destruct E as [-> _]. apply Forall_app in Fb. exists a, b. rewrite <- app_assoc. repeat split; [exact Fa|exact (proj1 Fb)|exact H].
Qed.

(** * The list *)
Lemma one_line_nl l r : no_byte 10 l -> one_line (l ++ 10%N :: r) = (l ++ [10%N], r).
Proof.
  induction l as [|c l IH]; intros F; cbn [app].
  - destruct r; reflexivity.
  - pose proof (IH (Forall_inv_tail F)) as E. destruct (N.eqb_spec c 10) as [Q|Q]; [contradiction (Forall_inv F Q)|].
    cbn [one_line]. destruct (l ++ 10%N :: r) as [|y m] eqn:M; [destruct l; discriminate M|]. destruct (N.eqb_spec c 10); [contradiction|]. rewrite E. reflexivity.
Qed.
Lemma one_line_last s : no_byte 10 s -> one_line s = (s, []).
Proof.
  induction s as [|c s IH]; intros F; [reflexivity|]. pose proof (IH (Forall_inv_tail F)) as E. cbn [one_line].
  destruct s as [|y m]; [reflexivity|]. destruct (N.eqb_spec c 10) as [Q|Q]; [contradiction (Forall_inv F Q)|]. rewrite E. reflexivity.
Qed.
(** One line's contribution. *)
Lemma named_line l ls ns : no_byte 0 (l ++ [10%N]) -> named_in ls ns ->
  forall n, trimmed l n -> named_in (l :: ls) (match n with [] => ns | c :: _ => if (c =? 0)%N || (c =? 35)%N then ns else n :: ns end).
Proof.
  intros Z N n T. destruct n as [|c n]; [exact (ni_blank l ls ns T N)|].
  destruct (N.eqb_spec c 0) as [->|Q].
  { exfalso. destruct T as [a [b [-> _]]]. apply Forall_app in Z. destruct Z as [Z _]. apply Forall_app in Z. destruct Z as [_ Z]. exact (Forall_inv Z eq_refl). }
  cbn [orb]. destruct (N.eqb_spec c 35) as [->|Q']; [exact (ni_comment l ls ns n T N)|exact (ni_name l ls ns c n T Q' N)].
Qed.
Lemma list_lines ls : forall fuel rest, Forall (no_byte 10) ls -> no_byte 10 rest -> no_byte 0 (unlines ls rest) -> last_ok rest -> length (unlines ls rest) <= fuel ->
  named_in (ls ++ [rest]) (list_names fuel (unlines ls rest)).
Proof.
  induction ls as [|l ls IH]; intros fuel rest F Fr Z O L.
  - cbn [unlines map concat app]. unfold unlines in *. cbn [map concat app] in *.
    destruct rest as [|c [|d r]].
    + replace (list_names fuel []) with (@nil bytes) by (destruct fuel; reflexivity). apply ni_blank; [apply white_trimmed; constructor|constructor].
    + replace (list_names fuel [c]) with (@nil bytes) by (destruct fuel; reflexivity). destruct O as [W| ->]; [apply ni_blank; [apply white_trimmed; constructor; [exact W|constructor]|constructor]|].
      apply (ni_comment _ _ _ []); [|constructor]. exists [], []. repeat split; try constructor; intros W; cbn in W; intuition discriminate.
    + destruct fuel as [|fuel]; [cbn in L; lia|]. cbn [list_names]. rewrite (one_line_last _ Fr). replace (list_names fuel []) with (@nil bytes) by (destruct fuel; reflexivity).
      assert (Z' : no_byte 0 ((c :: d :: r) ++ [10%N])) by (apply Forall_app; split; [exact Z|repeat constructor; discriminate]).
      pose proof (named_line (c :: d :: r) [] [] Z' ni_nil _ (trim_ok (c :: d :: r))) as K.
      destruct (trim (c :: d :: r)) as [|x n]; [exact K|]. destruct ((x =? 0)%N || (x =? 35)%N); exact K.
  - assert (E : unlines (l :: ls) rest = l ++ 10%N :: unlines ls rest) by (unfold unlines; cbn [map concat]; rewrite <- !app_assoc; reflexivity).
    rewrite E in *. pose proof (Forall_inv F) as Fl. apply Forall_app in Z as Zs. destruct Zs as [Zl Zr].
    assert (Zl' : no_byte 0 (l ++ [10%N])) by (apply Forall_app; split; [exact Zl|repeat constructor; discriminate]).
    assert (Two : (exists c d r, l ++ 10%N :: unlines ls rest = c :: d :: r) \/ (l = [] /\ unlines ls rest = [])).
    { destruct l as [|c l]; cbn [app]; [destruct (unlines ls rest) as [|d r]; [right; split; reflexivity|left; eexists; eexists; eexists; reflexivity]|].
      left. destruct l as [|d l]; cbn [app]; eexists; eexists; eexists; reflexivity. }
    destruct Two as [[c [d [r T]]]|[-> U]].
    + destruct fuel as [|fuel]; [rewrite app_length in L; cbn in L; lia|].
      assert (Ln : list_names (S fuel) (l ++ 10%N :: unlines ls rest) = match trim (l ++ [10%N]) with [] => list_names fuel (unlines ls rest)
         | x :: _ => if (x =? 0)%N || (x =? 35)%N then list_names fuel (unlines ls rest) else trim (l ++ [10%N]) :: list_names fuel (unlines ls rest) end).
      { pose proof (one_line_nl l (unlines ls rest) Fl) as Ol. rewrite T in *. cbn [list_names]. rewrite Ol. destruct (trim (l ++ [10%N])) as [|x n]; [reflexivity|]. destruct ((x =? 0)%N || (x =? 35)%N); reflexivity. }
      rewrite Ln. cbn [app].
      assert (Nr : named_in (ls ++ [rest]) (list_names fuel (unlines ls rest))) by (apply IH; [exact (Forall_inv_tail F)|exact Fr|exact (Forall_inv_tail Zr)|exact O|rewrite app_length in L; cbn [length] in L; lia]).
      pose proof (named_line l (ls ++ [rest]) _ Zl' Nr _ (trim_line _ _ (trim_ok (l ++ [10%N])))) as K.
      destruct (trim (l ++ [10%N])) as [|x n]; [exact K|]. destruct ((x =? 0)%N || (x =? 35)%N); exact K.
    + rewrite U. cbn [app]. replace (list_names fuel [10%N]) with (@nil bytes) by (destruct fuel; reflexivity).
      unfold unlines in U. apply app_eq_nil in U. destruct U as [U ->]. destruct ls as [|l ls]; [|cbn in U; destruct l; discriminate U].
      cbn [app]. apply ni_blank; [apply white_trimmed; constructor|]. apply ni_blank; [apply white_trimmed; constructor|constructor].
Qed.
Lemma filelist_names ls rest : Forall (no_byte 10) ls -> no_byte 10 rest -> no_byte 0 (unlines ls rest) -> last_ok rest -> unlines ls rest <> [] ->
  exists names, filelist (unlines ls rest) = Ok names /\ named_in (ls ++ [rest]) names.
Proof.
  intros F Fr Z O Ne. exists (list_names (length (unlines ls rest)) (unlines ls rest)). split; [|exact (list_lines ls _ rest F Fr Z O (le_n _))].
  unfold filelist. destruct (unlines ls rest); [contradiction Ne; reflexivity|reflexivity].
Qed.

(** * Names *)
Lemma clean_ok f : exists k, f = concat (repeat (txt "./") k) ++ clean_name f /\ (forall r, clean_name f <> txt "./" ++ r).
Proof.
  remember (length f) as n eqn:Hn. revert f Hn. induction n as [n IH] using lt_wf_ind. intros f Hn. subst n.
  destruct f as [|a [|b r]].
  - exists 0. split; [reflexivity|]. intros r E. discriminate E.
  - exists 0. assert (C : clean_name [a] = [a]) by (cbn [clean_name]; destruct a as [|p]; [reflexivity|]; repeat (destruct p as [p|p|]; try reflexivity)). rewrite C. split; [reflexivity|]. intros r E. discriminate E.
  - destruct (N.eq_dec a 46) as [->|A]; [destruct (N.eq_dec b 47) as [->|B]|].
    + destruct (IH (length r) ltac:(cbn; lia) r eq_refl) as [k [E H]]. exists (S k). split; [cbn [repeat concat]; rewrite <- app_assoc; change (clean_name (46%N :: 47%N :: r)) with (clean_name r); rewrite <- E; reflexivity|exact H].
    + exists 0. assert (C : clean_name (46%N :: b :: r) = 46%N :: b :: r).
      { cbn [clean_name]. destruct b as [|p]; [reflexivity|]. destruct (N.eq_dec (N.pos p) 47); [contradiction|]. repeat (destruct p as [p|p|]; try reflexivity). contradiction B. reflexivity. }
      rewrite C. split; [reflexivity|]. intros x E. injection E as E _. exact (B E).
    + exists 0. assert (C : clean_name (a :: b :: r) = a :: b :: r).
      { cbn [clean_name]. destruct a as [|p]; [reflexivity|]. repeat (destruct p as [p|p|]; try reflexivity). contradiction A. reflexivity. }
      rewrite C. split; [reflexivity|]. intros x E. injection E as E _. exact (A E).
Qed.
Lemma clean_app p x : match x with 47%N :: _ => False | 46%N :: 47%N :: _ => False | _ => True end -> clean_name (p ++ x) = clean_name p ++ x.
Proof.
  intros X. remember (length p) as n eqn:Hn. revert p Hn. induction n as [n IH] using lt_wf_ind. intros p Hn. subst n.
  destruct p as [|a [|b r]].
  - cbn [app]. change (clean_name [] ++ x) with x. destruct x as [|a [|b x]]; [reflexivity|cbn [clean_name]; destruct a as [|p]; [reflexivity|]; repeat (destruct p as [p|p|]; try reflexivity)|].
    cbn [clean_name]. destruct a as [|p]; [reflexivity|]. repeat (destruct p as [p|p|]; try reflexivity). destruct b as [|p]; [reflexivity|]. repeat (destruct p as [p|p|]; try reflexivity). destruct X.
  - cbn [app]. assert (C : clean_name [a] = [a]) by (cbn [clean_name]; destruct a as [|p]; [reflexivity|]; repeat (destruct p as [p|p|]; try reflexivity)). rewrite C.
    destruct x as [|b x]; [exact C|]. cbn [clean_name app]. destruct a as [|p]; [reflexivity|]. repeat (destruct p as [p|p|]; try reflexivity). destruct b as [|p]; [reflexivity|]. repeat (destruct p as [p|p|]; try reflexivity). destruct X.
  - cbn [app]. pose proof (IH (length r) ltac:(cbn; lia) r eq_refl) as E. cbn [clean_name]. destruct a as [|p]; [reflexivity|]. repeat (destruct p as [p|p|]; try reflexivity).
    destruct b as [|p]; [reflexivity|]. repeat (destruct p as [p|p|]; try reflexivity). exact E.
Qed.
Lemma chop_app es : forall f, chop (f ++ concat (rev es)) es = Ok f.
Proof.
  induction es as [|e es IH]; intros f; cbn [rev concat chop]; [rewrite app_nil_r; reflexivity|].
  rewrite concat_app. cbn [concat]. rewrite app_nil_r, app_assoc. rewrite app_length.
  replace (length (f ++ concat (rev es)) + length e <? length e) with false by (symmetry; apply Nat.ltb_ge; lia).
  replace (length (f ++ concat (rev es)) + length e - length e) with (length (f ++ concat (rev es))) by lia.
  rewrite firstn_app, Nat.sub_diag, firstn_all. cbn [firstn]. rewrite app_nil_r. apply IH.
Qed.
Lemma all_true {A} (f : A -> bool) l : Forall (fun x => f x = true) l -> filter f l = l.
Proof. induction 1 as [|x l E _ IH]; [reflexivity|]. cbn [filter]. rewrite E, IH. reflexivity. Qed.
Lemma unit_named isdir i s : i <> [] -> ~ contains i SEPARATOR -> i <> txt "-" -> i <> txt "/dev/stdin" -> ~ (contains i (txt "http:") /\ contains i (txt "https:")) ->
  no_byte 63 i -> isdir i = false -> input_of isdir i = Ok s -> in_archives s = [] ->
  exists es, i = in_plain s ++ concat (rev es) /\ Forall (fun e => In e compression_extensions) es /\ unit_name s = Ok (clean_name (in_plain s)).
Proof.
  intros Ne C A B D Q Dr E Ar. destruct (local_input isdir i Ne C A B D Q) as [s' [E' [_ [Rs [_ K]]]]]. rewrite E in E'. injection E' as <-.
  destruct (K Dr) as [es [F1 [F2 [F3 [F4 _]]]]]. exists es. split; [exact F1|]. rewrite Ar in F4.
  assert (G : Forall (fun e => In e compression_extensions) es).
  { clear -F2 F4. induction es as [|e es IH]; [constructor|]. cbn [filter] in F4. destruct (is_archive_ext e) eqn:K; [discriminate F4|].
    constructor; [|exact (IH (Forall_inv_tail F2) F4)]. destruct (Forall_inv F2) as [I|I]; [|exact I]. apply in_ext in I. unfold is_archive_ext in K. congruence. }
  split; [exact G|]. unfold unit_name. rewrite Rs, F3. rewrite (all_true is_compressed es).
  2:{ eapply Forall_impl; [|exact G]. intros e I. apply in_ext. exact I. }
  rewrite F1, clean_app; [apply chop_app|]. clear -G. destruct (rev es) as [|e r] eqn:R; [exact I|].
  assert (Ie : In e compression_extensions). { assert (In e es) by (apply in_rev; rewrite R; left; reflexivity). rewrite Forall_forall in G. auto. }
  cbn [concat]. cbn in Ie. repeat (destruct Ie as [<-|Ie]; [exact I|]). destruct Ie.
Qed.
Lemma output_ok dir f : dir <> txt "." -> dir <> txt "./" -> output_file dir f = dir ++ [47%N] ++ f /\
  exists base, output_file dir f = output_path dir f ++ base /\ (base = f /\ no_byte 47 f \/ exists n, base = 47%N :: n /\ no_byte 47 n).
Proof.
  intros A B. unfold output_file, output_path. destruct (beqb dir (txt ".")) eqn:E; [contradiction (A (proj1 (beqb_true _ _) E))|]. destruct (beqb dir (txt "./")) eqn:E'; [contradiction (B (proj1 (beqb_true _ _) E'))|]. cbn [orb].
  split; [reflexivity|]. destruct (rfind 47 f) as [p|] eqn:R.
  - destruct (rfind_some _ _ _ R) as [Sp Nb]. exists (47%N :: skipn (S p) f). split; [rewrite <- !app_assoc; rewrite Sp at 1; reflexivity|]. right. eexists. split; [reflexivity|exact Nb].
  - exists f. rewrite <- !app_assoc. split; [reflexivity|]. left. split; [reflexivity|exact (rfind_none _ _ R)].
Qed.
Lemma unit_file_ok dir f : unit_file dir f = dir ++ [47%N] ++ f ++ txt ".xml" /\ exists n, unit_file dir f = unit_path dir f ++ 47%N :: n /\ no_byte 47 n.
Proof.
  split; [reflexivity|]. unfold unit_path. destruct (rfind 47 (unit_file dir f)) as [p|] eqn:R.
  - destruct (rfind_some _ _ _ R) as [Sp Nb]. eexists. split; [exact Sp|exact Nb].
  - exfalso. pose proof (rfind_none _ _ R) as F. unfold unit_file in F. apply Forall_app in F. destruct F as [_ F]. exact (Forall_inv F eq_refl).
Qed.

(** * C31: a local file as an input *)
Lemma local_kind isdir i : i <> [] -> ~ contains i SEPARATOR -> i <> txt "-" -> i <> txt "/dev/stdin" -> ~ (contains i (txt "http:") /\ contains i (txt "https:")) ->
  no_byte 63 i -> exists s, input_of isdir i = Ok s /\ in_protocol s = txt "file" /\ in_resource s = i /\ in_isdir s = isdir i /\
    (isdir i = false -> exists es, i = in_plain s ++ concat (rev es) /\ Forall container es /\
       in_compressions s = filter is_compressed es /\ in_archives s = filter is_archive_ext es /\
       extension_of (in_plain s) (in_extension s) /\ ~ container (in_extension s) /\
       (in_state s = KSrcml <-> in_extension s = txt ".xml" \/ in_extension s = txt ".srcml") /\ in_state s <> KIndeterminate).
Proof.
  intros A B C D E F. destruct (local_input isdir i A B C D E F) as [s [K1 [K2 [K3 [K4 K]]]]]. exists s. repeat (split; [assumption|]).
  intros H. destruct (K H) as [es [E1 [E2 [E3 [E4 [E5 [E6 E7]]]]]]]. exists es. repeat (split; [assumption|]).
  split; [|split; [exact E6|]].
  - destruct (extension_split (in_plain s)) as [P1 [P2 P3]]. rewrite <- E5 in *. exists (pop_extension (in_plain s)). split; [exact P1|].
    destruct (in_extension s) as [|c e]; [left; split; [reflexivity|apply P2; reflexivity]|right; apply P3; discriminate].
  - rewrite E7. destruct (beqb (in_extension s) (txt ".xml")) eqn:X; [apply beqb_true in X|]; [|destruct (beqb (in_extension s) (txt ".srcml")) eqn:Y; [apply beqb_true in Y|]]; cbn [orb].
    + split; [split; [left; exact X|reflexivity]|discriminate].
    + split; [split; [right; exact Y|reflexivity]|discriminate].
    + split; [split; [discriminate|]|discriminate]. intros [Q|Q]; rewrite Q in *; discriminate.
Qed.
Lemma zero_octal isdir : input_text isdir (txt "a\400b") = Ok [[97; 0; 98]%N].
Proof. reflexivity. Qed.
Lemma input_empty isdir p : no_byte 58 p -> input_of isdir (p ++ txt "://") = UB.
Proof.
  intros F. destruct (split_prefixed p [] F) as [Sp _]. unfold add_protocol in Sp. cbn [app] in Sp. rewrite app_nil_r in Sp.
  unfold input_of. rewrite (add_prefixed (p ++ txt "://")) by (exists p, []; rewrite app_nil_r; reflexivity).
  change (txt "://") with SEPARATOR. rewrite Sp. destruct (negb _ && negb _ && negb _); reflexivity.
Qed.
Lemma text_separator isdir a b : no_byte 58 a -> b <> [] -> no_byte 0 (a ++ b) -> no_byte 92 b -> input_text isdir (a ++ txt "://" ++ b) = Ok [b].
Proof.
  intros Na Nb Z F. unfold input_text, input_of. rewrite (add_prefixed _ (add_contains _ _)).
  destruct (split_prefixed (txt "text") (a ++ txt "://" ++ b)) as [Sp _]; [repeat constructor; discriminate|]. rewrite Sp.
  change (negb (beqb (txt "text") (txt "text"))) with false. cbn [andb]. destruct (a ++ txt "://" ++ b) as [|c r] eqn:E; [destruct a; discriminate E|].
  rewrite andb_false_r. cbn [obind in_resource]. rewrite <- E. destruct (split_prefixed a b Na) as [_ [_ U]]. unfold add_protocol in U. change SEPARATOR with (txt "://") in U. rewrite U.
  apply Forall_app in Z. rewrite (upto_nul_id _ (proj2 Z)). destruct b as [|x b]; [contradiction Nb; reflexivity|].
  assert (St : strchr (x :: b) 92 = None) by (apply strchr_none; exact F). cbn [length text_requests text_request]. rewrite St. reflexivity.
Qed.
Lemma trimmed_unique l a b : trimmed l a -> trimmed l b -> a = b.
Proof.
  assert (Half : forall (u v x y : bytes), u ++ x = v ++ y -> Forall white u -> Forall white v -> match x with [] => True | c :: _ => ~ white c end -> match y with [] => True | c :: _ => ~ white c end -> x <> [] -> y <> [] -> x = y).
  { induction u as [|c u IH]; intros v x y E Fu Fv Hx Hy Nx Ny.
    - destruct v as [|d v]; [exact E|]. cbn [app] in E. subst x. contradiction (Hx (Forall_inv Fv)).
    - destruct v as [|d v]; cbn [app] in E; [subst y; contradiction (Hy (Forall_inv Fu))|]. injection E as _ E. exact (IH v x y E (Forall_inv_tail Fu) (Forall_inv_tail Fv) Hx Hy Nx Ny). }
  assert (Em : forall n, trimmed l [] -> trimmed l n -> n = []).
  { intros n [p [q [E [Fp [Fq _]]]]] [u [v [E' [_ [_ H]]]]]. destruct n as [|c n]; [reflexivity|]. exfalso. apply (proj1 H).
    assert (F : Forall white l) by (rewrite E; apply Forall_app; split; assumption). rewrite E' in F. apply Forall_app in F. destruct F as [_ F]. cbn [app] in F. exact (Forall_inv F). }
  intros A B. destruct a as [|c a]; [symmetry; exact (Em b A B)|]. destruct b as [|d b]; [exact (Em _ B A)|].
  destruct A as [p [q [E [Fp [Fq [H1 H2]]]]]], B as [u [v [E' [Fu [Fv [K1 K2]]]]]]. rewrite E in E'.
  assert (M : (c :: a) ++ q = (d :: b) ++ v) by (apply (Half p u); auto; discriminate).
  apply (f_equal (@rev N)) in M. rewrite !rev_app_distr in M.
  assert (R : forall n x, n <> [] -> ~ white (last n x) -> match rev n with [] => True | c :: _ => ~ white c end).
  { intros n x Nn Hl. destruct (exists_last Nn) as [n' [y ->]]. rewrite last_last in Hl. rewrite rev_app_distr. exact Hl. }
  assert (Rev : rev (c :: a) = rev (d :: b)).
  { apply (Half (rev q) (rev v)); auto using Forall_rev.
    - apply (R _ 0%N); [discriminate|exact H2].
    - apply (R _ 0%N); [discriminate|exact K2].
    - intros Q. apply (f_equal (@length N)) in Q. rewrite rev_length in Q. discriminate Q.
    - intros Q. apply (f_equal (@length N)) in Q. rewrite rev_length in Q. discriminate Q. }
  rewrite <- (rev_involutive (c :: a)), Rev, rev_involutive. reflexivity.
Qed.
Lemma named_unique ls : forall a b, named_in ls a -> named_in ls b -> a = b.
Proof.
  induction ls as [|l ls IH]; intros a b A B; [inversion A; inversion B; reflexivity|].
  inversion A; subst; inversion B; subst;
    repeat match goal with T : trimmed l ?x, U : trimmed l ?y |- _ => pose proof (trimmed_unique l x y T U); clear T end; try discriminate;
    try (apply IH; assumption).
  - exfalso. match goal with E : _ :: _ = _ :: _ |- _ => injection E as E _; congruence end.
  - exfalso. match goal with E : _ :: _ = _ :: _ |- _ => injection E as E _; congruence end.
  - match goal with E : _ :: _ = _ :: _ |- _ => rewrite <- E || rewrite E end. f_equal. apply IH; assumption.
Qed.
Lemma last_lost : ~ forall ls rest, Forall (no_byte 10) ls -> no_byte 10 rest -> no_byte 0 (unlines ls rest) -> unlines ls rest <> [] ->
  exists names, filelist (unlines ls rest) = Ok names /\ named_in (ls ++ [rest]) names.
Proof.
  intros H. destruct (H [txt "a.c"] (txt "b")) as [names [E N1]]; try (vm_compute; repeat constructor; discriminate); try discriminate.
  vm_compute in E. injection E as <-.
  assert (N2 : named_in ([txt "a.c"] ++ [txt "b"]) [txt "a.c"; txt "b"]).
  { assert (W : forall c, is_white c = false -> ~ white c) by (intros c Hc K; apply white_in in K; congruence).
    apply ni_name; [|discriminate|apply ni_name; [|discriminate|constructor]]; exists [], []; repeat split; try constructor; apply W; reflexivity. }
  pose proof (named_unique _ _ _ N1 N2) as Q. discriminate Q.
Qed.
