(** Which way srcml() translates. *)
From Verif Require Import Base Text_Model Text_Spec Text_Proofs Api_Model Api_Spec Api_Proofs Writer_Model Writer_Spec Archive_Model Archive_Spec Global_Model Global_Spec Global_Settings.
Local Open Scope N_scope.

Definition low (c d : N) : Prop := c = d \/ (97 <= d <= 122 /\ c + 32 = d).
Lemma lower_low : forall c d, 97 <= d <= 122 -> (lower c =? d) = true <-> low c d.
Proof.
  intros c d R. unfold lower, low. rewrite N.eqb_eq. destruct (N.leb_spec 65 c), (N.leb_spec c 90); cbn [andb]; lia.
Qed.
Lemma lower_dot : forall c, (lower c =? 46) = true <-> c = 46.
Proof. intros c. unfold lower. rewrite N.eqb_eq. destruct (N.leb_spec 65 c), (N.leb_spec c 90); cbn [andb]; lia. Qed.
Lemma at_end_rev : forall s k, at_end s (S k) = match nth_error (rev s) k with Some c => Ok c | None => UB end.
Proof.
  intros s k. unfold at_end. destruct (Nat.leb_spec (S k) (length s)) as [L|L].
  - assert (E : nth_error (rev s) k = nth_error s (length s - S k)); [|rewrite E; reflexivity].
    rewrite <- (rev_involutive s) at 2. rewrite !(nth_error_nth' _ 0) by (rewrite ?rev_length; lia). f_equal. rewrite (rev_nth (rev s)) by (rewrite rev_length; lia). f_equal. rewrite rev_length. lia.
  - assert (E : nth_error (rev s) k = None) by (apply nth_error_None; rewrite rev_length; lia). rewrite E. reflexivity.
Qed.
Lemma letters_rev : forall s t, same_letters s t <-> Forall2 low (rev s) (rev t).
Proof.
  assert (X : forall s t, Forall2 low s t -> Forall2 low (rev s) (rev t)).
  { induction 1 as [|c d s t L F IH]; [constructor|]. cbn. apply Forall2_app; [exact IH|constructor; [exact L|constructor]]. }
  intros s t. split; [apply X|]. intros F. apply X in F. rewrite !rev_involutive in F. exact F.
Qed.
Definition ends_xml (r : bytes) : Prop := exists a b c x rest, r = a :: b :: c :: 46 :: x :: rest /\ low a 108 /\ low b 109 /\ low c 120.
Definition ends_srcml (r : bytes) : Prop := exists a b c d e rest, r = a :: b :: c :: d :: e :: 46 :: rest /\ low a 108 /\ low b 109 /\ low c 99 /\ low d 114 /\ low e 115.
Lemma srcml_name_rev : forall s, srcml_name s <-> ends_xml (rev s) \/ ends_srcml (rev s).
Proof.
  intros s. split.
  - intros (base & ext & -> & [(L & B)|L]); apply letters_rev in L; rewrite rev_app_distr; cbn [rev app]; rewrite <- app_assoc; cbn [app].
    + left. change (rev (txt "xml")) with [108; 109; 120] in L. inversion L as [|a ? ra ? L1 F1 E1]; subst. inversion F1 as [|b ? rb ? L2 F2 E2]; subst. inversion F2 as [|c ? rc ? L3 F3 E3]; subst. inversion F3; subst.
      destruct (rev base) as [|x rest] eqn:RB; [exfalso; apply B; rewrite <- (rev_involutive base), RB; reflexivity|].
      exists a, b, c, x, rest. auto.
    + right. change (rev (txt "srcml")) with [108; 109; 99; 114; 115] in L. inversion L as [|a ? ra ? L1 F1 E1]; subst. inversion F1 as [|b ? rb ? L2 F2 E2]; subst. inversion F2 as [|c ? rc ? L3 F3 E3]; subst.
      inversion F3 as [|d ? rd ? L4 F4 E4]; subst. inversion F4 as [|e ? re ? L5 F5 E5]; subst. inversion F5; subst. exists a, b, c, d, e, (rev base). auto 7.
  - intros [(a & b & c & x & rest & E & L1 & L2 & L3)|(a & b & c & d & e & rest & E & L1 & L2 & L3 & L4 & L5)].
    + exists (rev (x :: rest)), [c; b; a]. split.
      * rewrite <- (rev_involutive s), E. cbn [rev]. rewrite <- !app_assoc. reflexivity.
      * left. split; [repeat (constructor; [assumption|]); constructor|]. intros Z. apply (f_equal (@length N)) in Z. rewrite rev_length in Z. discriminate Z.
    + exists (rev rest), [e; d; c; b; a]. split.
      * rewrite <- (rev_involutive s), E. cbn [rev]. rewrite <- !app_assoc. reflexivity.
      * right. repeat (constructor; [assumption|]); constructor.
Qed.
Lemma name_rev : forall s, xml_name s =
  andalso (Ok (4 <? length (rev s))%nat)
   (let k := fun i c => obind (match nth_error (rev s) i with Some x => Ok x | None => UB end) (fun x => Ok (lower x =? c)) in
    andalso (k 0%nat 108) (andalso (k 1%nat 109)
      (orelse (andalso (k 2%nat 120) (obind (match nth_error (rev s) 3 with Some x => Ok x | None => UB end) (fun x => Ok (x =? 46))))
              (andalso (k 2%nat 99) (andalso (k 3%nat 114) (andalso (k 4%nat 115) (k 5%nat 46))))))).
Proof. intros s. unfold xml_name, is. rewrite !at_end_rev, rev_length. reflexivity. Qed.
Lemma bool_iff : forall b c, (b = true <-> c = true) -> b = c.
Proof. intros [] []; intuition congruence. Qed.
Lemma name_ok : forall s, ~ same_letters s (txt "srcml") -> exists b, xml_name s = Ok b /\ (b = true <-> srcml_name s).
Proof.
  intros s NS. rewrite name_rev. rewrite letters_rev in NS. change (rev (txt "srcml")) with [108; 109; 99; 114; 115] in NS.
  assert (SN := srcml_name_rev s). remember (rev s) as r eqn:ER. clear ER.
  destruct r as [|a [|b [|c [|d [|e r]]]]].
  1-5: exists false; split; [reflexivity|]; rewrite SN; split; [discriminate|]; intros [(? & ? & ? & ? & ? & E & _)|(? & ? & ? & ? & ? & ? & E & _)]; discriminate E.
  cbn [length]. replace (4 <? _)%nat with true by (symmetry; apply Nat.ltb_lt; lia). cbn [andalso obind nth_error].
  assert (LA := lower_low a 108 ltac:(lia)). assert (LB := lower_low b 109 ltac:(lia)). assert (LC := lower_low c 120 ltac:(lia)). assert (LC' := lower_low c 99 ltac:(lia)).
  assert (LD := lower_low d 114 ltac:(lia)). assert (LE := lower_low e 115 ltac:(lia)).
  destruct (lower a =? 108) eqn:EA; [|exists false; split; [reflexivity|]; rewrite SN; split; [discriminate|]; intros [(? & ? & ? & ? & ? & E & A1 & _)|(? & ? & ? & ? & ? & ? & E & A1 & _)]; injection E as <-; apply LA in A1; discriminate A1].
  destruct (lower b =? 109) eqn:EB; [|exists false; split; [reflexivity|]; rewrite SN; split; [discriminate|]; intros [(? & ? & ? & ? & ? & E & _ & A1 & _)|(? & ? & ? & ? & ? & ? & E & _ & A1 & _)]; injection E as _ <-; apply LB in A1; discriminate A1].
  cbn [andalso obind]. destruct (lower c =? 120) eqn:EC.
  - assert (C9 : (lower c =? 99) = false) by (apply N.eqb_eq in EC; rewrite EC; reflexivity). rewrite C9 in *. cbn [andalso obind orelse]. exists (d =? 46). split; [destruct (d =? 46); reflexivity|]. rewrite SN, N.eqb_eq. split.
    + intros ->. left. exists a, b, c, e, r. repeat split; [apply LA|apply LB|apply LC]; reflexivity.
    + intros [(? & ? & ? & ? & ? & E & _)|(? & ? & ? & ? & ? & ? & E & _ & _ & A1 & _)]; [injection E as _ _ _ -> _ _; reflexivity|]. injection E as _ _ <-. apply LC' in A1. discriminate A1.
  - cbn [andalso obind orelse]. assert (NX : ~ ends_xml (a :: b :: c :: d :: e :: r)).
    { intros (? & ? & ? & ? & ? & E & _ & _ & A1). injection E as _ _ <-. apply LC in A1. discriminate A1. }
    destruct (lower c =? 99) eqn:E9; [|exists false; split; [reflexivity|]; rewrite SN; split; [discriminate|]; intros [X|(? & ? & ? & ? & ? & ? & E & _ & _ & A1 & _)]; [contradiction|]; injection E as _ _ <-; apply LC' in A1; discriminate A1].
    destruct (lower d =? 114) eqn:ED; [|exists false; split; [reflexivity|]; rewrite SN; split; [discriminate|]; intros [X|(? & ? & ? & ? & ? & ? & E & _ & _ & _ & A1 & _)]; [contradiction|]; injection E as _ _ _ <-; apply LD in A1; discriminate A1].
    destruct (lower e =? 115) eqn:EE; [|exists false; split; [reflexivity|]; rewrite SN; split; [discriminate|]; intros [X|(? & ? & ? & ? & ? & ? & E & _ & _ & _ & _ & A1)]; [contradiction|]; injection E as _ _ _ _ <-; apply LE in A1; discriminate A1].
    destruct r as [|f r].
    + exfalso. apply NS. repeat (constructor; [first [apply LA|apply LB|apply LC'|apply LD|apply LE]; reflexivity|]). constructor.
    + cbn [andalso obind]. exists (lower f =? 46). split; [reflexivity|]. rewrite SN, lower_dot. split.
      * intros ->. right. exists a, b, c, d, e, r. repeat split; [apply LA|apply LB|apply LC'|apply LD|apply LE]; reflexivity.
      * intros [X|(? & ? & ? & ? & ? & ? & E & _)]; [contradiction|]. injection E as _ _ _ _ _ -> _. reflexivity.
Qed.
(** a file called srcml: the byte before its name is read *)
Lemma name_outside : forall s, same_letters s (txt "srcml") -> xml_name s = UB.
Proof.
  intros s L. rewrite name_rev. apply letters_rev in L. change (rev (txt "srcml")) with [108; 109; 99; 114; 115] in L. remember (rev s) as r eqn:ER. clear ER.
  inversion L as [|a ? ra ? L1 F1 E1]; subst. inversion F1 as [|b ? rb ? L2 F2 E2]; subst. inversion F2 as [|c ? rc ? L3 F3 E3]; subst. inversion F3 as [|d ? rd ? L4 F4 E4]; subst. inversion F4 as [|e ? re ? L5 F5 E5]; subst. inversion F5; subst.
  cbn [length Nat.ltb Nat.leb andalso obind nth_error]. apply lower_low in L1, L2, L4, L5; try lia. pose proof L3 as L3'. apply lower_low in L3; [|lia]. rewrite L1, L2. cbn [andalso obind].
  assert (C0 : (lower c =? 120) = false) by (apply N.eqb_eq in L3; rewrite L3; reflexivity). rewrite C0. cbn [andalso orelse obind]. rewrite L3, L4, L5. reflexivity.
Qed.

(** ** The direction *)
Lemma direction : forall sys h rs g input output l, grun initial h = Ok (rs, g) -> named_language h input l ->
  (l <> None -> srcml sys g (Some input) (Some output) = to_srcml sys g input output) /\
  (l = None -> ~ same_letters input (txt "srcml") ->
   (srcml_name input \/ attr_set ALanguage h = Some (txt "xml") -> srcml sys g (Some input) (Some output) = Ok (to_source sys g input output)) /\
   (~ srcml_name input -> attr_set ALanguage h <> Some (txt "xml") -> srcml sys g (Some input) (Some output) = Ok (unknown g))).
Proof.
  intros sys h rs g input output l G N. pose proof (named_is _ _ _ _ _ G N) as C. pose proof (attr_is ALanguage _ _ _ G) as AL. cbn [get_attr] in AL. unfold srcml. rewrite C. cbn [obind]. split; [|intros E].
  - intros NN. destruct l; [reflexivity|contradiction].
  - intros NS. subst l. destruct (name_ok input NS) as (b & -> & BN). rewrite AL. cbn [orelse obind]. split.
    + intros D. destruct b; [reflexivity|]. destruct D as [D|D]; [apply BN in D; discriminate D|]. rewrite D. reflexivity.
    + intros N1 N2. destruct b; [exfalso; apply N1, BN; reflexivity|]. cbn [obind]. destruct (attr_set ALanguage h) as [x|] eqn:E; [|reflexivity].
      destruct (beqb x (txt "xml")) eqn:B; [|reflexivity]. exfalso. apply N2. rewrite beqb_dec in B. destruct (bytes_dec x (txt "xml")); [subst x; reflexivity|discriminate B].
Qed.
(** the settings stay as they are *)
Lemma kept : forall sys g i o st g' w, srcml sys g i o = Ok (st, g', w) -> g_archive g' = g_archive g /\ g_unit g' = g_unit g.
Proof.
  intros sys g i o st g' w E. unfold srcml in E. destruct i as [i|]; [|injection E as _ <- _; auto]. destruct o as [o|]; [|injection E as _ <- _; auto].
  destruct (check_extension (g_archive g) i) as [[l|]|]; cbn [obind] in E; try discriminate E.
  - unfold to_srcml in E. cbn [astep negb obind fst snd] in E. match type of E with obind ?x _ = _ => destruct x as [[ps pv]|]; [|discriminate E] end. cbn [obind fst snd] in E.
    assert (F' : forall st0 m, finish g st0 m = Ok (st, g', w) -> g' = g) by (intros st0 m X; pose proof X as Y; unfold finish in Y; destruct (close m); [cbn [obind] in Y; injection Y as _ <- _; reflexivity|discriminate Y]).
    destruct (is_ok ps); [|apply F' in E; subst; auto]. match type of E with obind ?x _ = _ => destruct x as [[ws wm]|]; [|discriminate E] end. cbn [obind fst snd] in E. apply F' in E. subst. auto.
  - match type of E with obind ?x _ = _ => destruct x as [[]|]; [| |discriminate E] end; cbn [obind] in E; apply (f_equal (fun o => match o with Ok x => x | UB => unknown g end)) in E; cbv beta iota in E.
    + unfold to_source, unparse_filename in E. destruct (s_reader sys i) as [[? [b|]| | ]|]; try (injection E as _ <- _; auto). destruct (s_creates sys o); injection E as _ <- _; auto.
    + unfold unknown in E. injection E as _ <- _. auto.
Qed.
