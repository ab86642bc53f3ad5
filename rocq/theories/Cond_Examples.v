(** Conditional compilation: parts marked up that should be text, and the other way round. *)
From Verif Require Import Base Lexer_Model Lexer_Examples Cond_Model Cond_Spec Cond_Proofs Cond_Proofs2.
Local Open Scope N_scope.

Definition If0 := If true.
Definition IfA := If false.
Definition both := COptions true true.
Definition one (p : part) : block := More p Nothing.
(** a parse without look-ahead, in [sizes] *)
Fixpoint straight (o : coptions) (ds : list (directive * bool)) (sizes : list N) (p : nat) (s : pp) : list (nat * bool) :=
  match ds, sizes with
  | (d, _) :: ds, size :: sizes => let (s', b) := eol_post o false size d s in (p, b) :: straight o ds sizes (S p) s'
  | _, _ => []
  end.
Lemma straight_parses o ds : forall pre l sizes s, l = pre ++ ds -> parses o l (length pre) s (straight o ds sizes (length pre) s).
Proof.
  induction ds as [|(d, t) ds IH]; intros pre l sizes s E; [constructor|]. destruct sizes as [|size sizes]; [constructor|]. cbn [straight].
  destruct (eol_post o false size d s) as [s' b] eqn:P. eapply PNext; [|exact P|].
  - rewrite E, nth_error_app2, Nat.sub_diag by apply Nat.le_refl. reflexivity.
  - specialize (IH (pre ++ [(d, t)]) l sizes s'). rewrite app_length in IH. cbn [length] in IH. rewrite Nat.add_1_r in IH. apply IH. rewrite <- app_assoc. exact E.
Qed.
Definition runs o ds sizes : parses o ds 0 start (straight o ds sizes 0 start) := straight_parses o ds [] ds sizes start eq_refl.

(** #if A, #else, #if B, #else, #endif, more, #endif: the rest of the outer #else is marked up *)
Definition nested_else := one (Cond IfA Nothing (Branch Else (More (Cond IfA Nothing (Branch Else Nothing Endif)) Nothing) Endif)).
Lemma nested_else_wrong : exists l, parses (COptions true false) (marked true true false nested_else) 0 start l /\
  In (4%nat, false) l /\ nth_error (marked true true false nested_else) 4 = Some (Dendif, true).
Proof. eexists. split; [apply (runs _ _ [1; 1; 1; 1; 1; 1])|]. vm_compute. auto 10. Qed.
(** #if A, #else, #if 0, #endif, more, #endif *)
Definition zero_in_else := one (Cond IfA Nothing (Branch Else (one (Cond If0 Nothing Endif)) Endif)).
Lemma zero_in_else_wrong : exists l, parses (COptions true false) (marked true true false zero_in_else) 0 start l /\
  In (3%nat, false) l /\ nth_error (marked true true false zero_in_else) 3 = Some (Dendif, true).
Proof. eexists. split; [apply (runs _ _ [1; 1; 1; 1; 1])|]. vm_compute. auto 10. Qed.
(** #if 0, #else, #if 0, #else, live, #endif, #endif: a smaller mode stack at the inner #else *)
Definition live_in_live := one (Cond If0 Nothing (Branch Else (one (Cond If0 Nothing (Branch Else Nothing Endif))) Endif)).
Lemma live_in_live_wrong : exists l, parses (COptions true false) (marked true true false live_in_live) 0 start l /\
  In (3%nat, true) l /\ nth_error (marked true true false live_in_live) 3 = Some (Delse, false).
Proof. eexists. split; [apply (runs _ _ [5; 5; 5; 3; 3; 3])|]. vm_compute. auto 10. Qed.
(** Look-ahead that ends in an #if 0, with both options: #if 0, #endif, #if A, #else: the state after look-ahead over the first #if is kept,
    and #if 0 met again, so the #endif is not its own *)
Definition zero_twice := More (Cond If0 Nothing Endif) (one (Cond IfA Nothing (Branch Else Nothing Endif))).
Lemma looked_wrong : exists l, parses both (marked true false false zero_twice) 0 start l /\
  In (3%nat, false) l /\ nth_error (marked true false false zero_twice) 3 = Some (Delse, true).
Proof.
  eexists. split; [|split].
  - eapply (PLook _ _ 0 _ 1); [reflexivity| |reflexivity|].
    + eapply LNext with (size := 1); [reflexivity|vm_compute; reflexivity|]. apply LStop.
    + eapply PNext with (size := 1); [reflexivity|vm_compute; reflexivity|]. eapply PNext with (size := 1); [reflexivity|vm_compute; reflexivity|].
      eapply PNext with (size := 1); [reflexivity|vm_compute; reflexivity|]. eapply PNext with (size := 1); [reflexivity|vm_compute; reflexivity|]. apply PStop.
  - vm_compute. auto 10.
  - reflexivity.
Qed.
(** The condition: 0 || X is taken for 0 *)
Definition line_end (t : tok) : bool := match k_type t with EOL => true | _ => false end.
Lemma zero_or : exists p i l, fst (tokens cxx (txt "#if 0 || X" ++ [10])) = p :: i :: l /\ zero_condition l = true.
Proof. eexists _, _, _. split; [vm_compute; reflexivity|reflexivity]. Qed.
Lemma zero_parens : exists p i l, fst (tokens cxx (txt "#if (0)" ++ [10])) = p :: i :: l /\ zero_condition l = false.
Proof. eexists _, _, _. split; [vm_compute; reflexivity|reflexivity]. Qed.
Lemma zero_plain : exists p i l, fst (tokens cxx (txt "#if 0" ++ [10])) = p :: i :: l /\ zero_condition l = true.
Proof. eexists _, _, _. split; [vm_compute; reflexivity|reflexivity]. Qed.
(** An apostrophe in the text left out: the #endif is inside of a literal that does not end *)
Definition dont : bytes := txt "#if 0" ++ [10] ++ txt "don't" ++ [10] ++ txt "#endif" ++ [10] ++ txt "int a;" ++ [10].
Definition is_preproc (k : tk) : bool := match k with PREPROC => true | _ => false end.
Lemma apostrophe : exists l, tokens cxx dont = (l, AtEnd) /\ length (filter (fun t => is_preproc (k_type t)) l) = 1%nat.
Proof. eexists. split; vm_compute; reflexivity. Qed.
(** ** Cases that meet the hypotheses *)
Definition usual := More Line (More (Cond If0 (one (Cond IfA Nothing (Branch Else Nothing Endif))) (Branch Else (one Line) Endif))
  (one (Cond Ifdef (one (Cond If0 (one Line) Endif)) (Branch (Elif false) (one (Cond IfA Nothing Endif)) (Branch Else Nothing Endif))))).
Lemma usual_simple : simple false usual = true.
Proof. reflexivity. Qed.
Lemma zero_iff l : zero_condition l = true <-> exists ws c rest, l = ws ++ c :: rest /\ Forall (fun t => k_type t = WS) ws /\ k_type c = CONSTANTS /\ k_text c = txt "0".
Proof.
  split.
  - induction l as [|t l IH]; intros H; [discriminate H|]. cbn in H. destruct (k_type t) eqn:E; try discriminate H.
    + exists [], t, l. split; [reflexivity|]. split; [constructor|]. split; [exact E|]. destruct (k_text t) as [|c [|]]; try discriminate H.
      * destruct c as [|c]; try discriminate H. do 6 (destruct c as [c|c|]; try discriminate H). reflexivity.
      * destruct c as [|c]; try discriminate H. do 6 (destruct c as [c|c|]; try discriminate H).
    + destruct (IH H) as (ws & c & rest & -> & F & K). exists (t :: ws), c, rest. split; [reflexivity|]. split; [now constructor|exact K].
  - intros (ws & c & rest & -> & F & K & T). induction F as [|t ws W F IH]; cbn; [now rewrite K, T|now rewrite W].
Qed.
