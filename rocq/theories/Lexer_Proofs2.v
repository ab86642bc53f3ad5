(** The rules of the main lexer, by what they take from the input. *)
From Verif Require Import Base Text_Model Text_Proofs3 Parser_Model Lexer_Model Lexer_Spec Lexer_Proofs.
Local Open Scope N_scope.

Definition code_char (c : N) : Prop := c <> 34 /\ c <> 39 /\ c <> 47 /\ ~ control c.
Definition retype (lang : N) ms (t : bytes) (k : tk) : tk := match literals lang ms t with Some k => k | None => k end.
Inductive cut (lang : N) (ms : list (bytes * bytes)) (m : main) : matched -> Prop :=
| cut_plain k t r m2 : t <> [] -> Forall code_char t -> plain_kind k -> cut lang ms m (Matched k t r m2 None)
| cut_control c r m2 : control c -> cut lang ms m (Matched CONTROL_CHAR [c] r m2 None)
| cut_slash t r m2 : t = [47] /\ hd 0 r <> 47 /\ hd 0 r <> 42 \/ t = [47; 61] ->
    cut lang ms m (Matched (retype lang ms t LINE_COMMENT_START) t r m2 None)
| cut_whole c r m2 : c = 42 \/ c = 33 -> cut lang ms m (Matched (retype lang ms [47; 42; c; 47] WHOLE_COMMENT) [47; 42; c; 47] r m2 None)
| cut_line t k e r m2 : t = [47; 47] /\ k = LINE_COMMENT_START /\ e = LINE_COMMENT_END \/
    (t = [47; 47; 47] \/ t = [47; 47; 33]) /\ k = LINE_DOXYGEN_COMMENT_START /\ e = LINE_DOXYGEN_COMMENT_END ->
    cut lang ms m (Matched (retype lang ms t k) t r m2 (Some (Textual e (onpreprocline m) (atstring m) [])))
| cut_block t k e r m2 : t = [47; 42] \/ (t = [47; 42; 42] \/ t = [47; 42; 33]) /\ hd 0 r <> 47 ->
    (k, e) = (BLOCK_COMMENT_START, BLOCK_COMMENT_END) \/ (k, e) = (JAVADOC_COMMENT_START, JAVADOC_COMMENT_END) \/ (k, e) = (DOXYGEN_COMMENT_START, DOXYGEN_COMMENT_END) ->
    cut lang ms m (Matched (retype lang ms t k) t r m2 (Some (Textual e (onpreprocline m) (atstring m) [])))
| cut_string pre k r m2 noescape : Forall code_char pre -> k = STRING_START \/ k = retype lang ms (pre ++ [34]) STRING_START -> noescape = true /\ pre = [64] \/ noescape = false ->
    cut lang ms m (Matched k (pre ++ [34]) r m2 (Some (Textual STRING_END (onpreprocline m) noescape [])))
| cut_raw q d o r m2 : inLanguage lang CXX = true -> Forall code_char (q ++ [82]) -> Forall (fun c => delimiter_char c = true) d -> o = [] \/ o = [40] ->
    cut lang ms m (Matched (retype lang ms ((q ++ [82]) ++ [34] ++ d ++ o) STRING_START) ((q ++ [82]) ++ [34] ++ d ++ o) r m2 (Some (Textual RAW_STRING_END (onpreprocline m) false d)))
| cut_char pre k r m2 : Forall code_char pre -> k = CHAR_START \/ k = retype lang ms (pre ++ [39]) CHAR_START ->
    cut lang ms m (Matched k (pre ++ [39]) r m2 (Some (Textual CHAR_END (onpreprocline m) false []))).

Lemma name_code : forall c, name_char c = true -> code_char c.
Proof. intros c H. unfold name_char, name_start, digit in H. unfold code_char, control. lia. Qed.
Lemma number_code : forall l, Forall (fun c => name_char c = true \/ c = 46 \/ c = 43 \/ c = 45) l -> Forall code_char l.
Proof. intros l H. eapply Forall_impl; [|exact H]. cbn beta. intros c [Q|Q]; [apply name_code, Q|]. unfold code_char, control. lia. Qed.
Lemma word_code : forall l, Forall (fun c => name_char c = true) l -> Forall code_char l.
Proof. intros l H. eapply Forall_impl; [|exact H]. exact name_code. Qed.
Lemma code_34 : forall t, Forall code_char t -> ~ In 34 t.
Proof. intros t F I. rewrite Forall_forall in F. destruct (F 34 I) as (Q & _). apply Q. reflexivity. Qed.
Lemma cut_retyped : forall lang ms m k t r m2, t <> [] -> Forall code_char t -> plain_kind k -> cut lang ms m (Matched (retype lang ms t k) t r m2 None).
Proof. intros. apply cut_plain; [assumption..|]. apply retyped; [assumption|]. apply code_34. assumption. Qed.
(** what an operator rule gives *)
Definition op_ok (m : main) (c : N) (r : bytes) (x : matched) : Prop :=
  c :: r = m_text x ++ m_rest x /\ atstring (m_main x) = false /\
  (m_text x <> [] /\ Forall code_char (m_text x) /\ plain_kind (m_type x) /\ m_push x = None \/
   m_text x = [64; 34] /\ m_type x = STRING_START /\ m_push x = Some (Textual STRING_END (onpreprocline m) true []) \/
   m_text x = [64; 39] /\ m_type x = CHAR_START /\ m_push x = Some (Textual CHAR_END (onpreprocline m) false [])).
Ltac code1 := unfold code_char, control, is in *; lia.
Lemma op_plain : forall m c r k t r2 m2, c :: r = t ++ r2 -> atstring m2 = false -> t <> [] -> Forall code_char t -> plain_kind k -> op_ok m c r (Matched k t r2 m2 None).
Proof. intros. split; [assumption|]. split; [assumption|]. left. auto. Qed.
Lemma op_done : forall m c r t r2, c :: r = t ++ r2 -> atstring m = false -> t <> [] -> Forall code_char t -> op_ok m c r (Matched OPERATORS t r2 m None).
Proof. intros. apply op_plain; auto. exact Logic.I. Qed.
Lemma opt_code : forall (p : N -> bool) t s u v, (forall c, p c = true -> code_char c) -> opt p t s = (u, v) -> t <> [] -> Forall code_char t ->
  t ++ s = u ++ v /\ u <> [] /\ Forall code_char u.
Proof.
  intros p t s u v P H N F. apply opt_app in H as (w & -> & -> & W). rewrite app_assoc. split; [reflexivity|]. split; [destruct t; [contradiction|discriminate]|].
  apply Forall_app. split; [exact F|]. eapply Forall_impl; [|exact W]. exact P.
Qed.
Lemma many_code : forall (p : N -> bool) t s u v, (forall c, p c = true -> code_char c) -> many p t s = (u, v) -> t <> [] -> Forall code_char t ->
  t ++ s = u ++ v /\ u <> [] /\ Forall code_char u.
Proof.
  intros p t s u v P H N F. apply many_app in H as (w & -> & -> & W & _). rewrite app_assoc. split; [reflexivity|]. split; [destruct t; [contradiction|discriminate]|].
  apply Forall_app. split; [exact F|]. eapply Forall_impl; [|exact W]. exact P.
Qed.
Ltac code_lit := repeat (constructor; [code1|]); constructor.
Ltac one_opt H := match type of H with Some (Matched OPERATORS (fst (opt ?p ?t ?r)) _ _ _) = _ =>
    let u := fresh "u" in let v := fresh "v" in let E := fresh "E" in destruct (opt p t r) as (u, v) eqn:E; cbn [fst snd] in H; injection H as <-;
    apply opt_code in E as (? & ? & ?); [|intros; code1|discriminate|code_lit]; apply op_done; assumption end.
Ltac two_opt H := match type of H with (let (_, _) := opt ?p ?t ?r in _) = _ =>
    let u := fresh "u" in let v := fresh "v" in let E := fresh "E" in destruct (opt p t r) as (u, v) eqn:E;
    apply opt_code in E as (? & ? & ?); [|intros; code1|discriminate|code_lit] end;
  match type of H with Some (Matched OPERATORS (fst (opt ?p ?t ?r)) _ _ _) = _ =>
    let u := fresh "u" in let v := fresh "v" in let E := fresh "E" in destruct (opt p t r) as (u, v) eqn:E; cbn [fst snd] in H; injection H as <-;
    apply opt_code in E as (? & ? & ?); [|intros; code1|assumption|assumption]; apply op_done; [eapply eq_trans; [|eassumption]; assumption|assumption..] end.
Lemma hd62 : forall (A : Type) (r : bytes) (f : bytes -> A) (g : A),
  match r with 62 :: r1 => f r1 | _ => g end = match r with c :: r1 => if c =? 62 then f r1 else g | [] => g end.
Proof. intros A [|c r] f g; [reflexivity|]. destruct (N.eqb_spec c 62) as [->|NE]; [reflexivity|]. destruct c as [|c]; [reflexivity|]. repeat (destruct c as [c|c|]; try reflexivity; try (exfalso; apply NE; reflexivity)). Qed.
Lemma hd60 : forall (A : Type) (r : bytes) (f : bytes -> A) (g : A),
  match r with 60 :: r1 => f r1 | _ => g end = match r with c :: r1 => if c =? 60 then f r1 else g | [] => g end.
Proof. intros A [|c r] f g; [reflexivity|]. destruct (N.eqb_spec c 60) as [->|NE]; [reflexivity|]. destruct c as [|c]; [reflexivity|]. repeat (destruct c as [c|c|]; try reflexivity; try (exfalso; apply NE; reflexivity)). Qed.
Lemma hd6261 : forall (A : Type) (r : bytes) (f : bytes -> A) (g : A),
  match r with 62 :: 61 :: r1 => f r1 | _ => g end = match r with c :: d :: r1 => if (c =? 62) && (d =? 61) then f r1 else g | _ => g end.
Proof.
  intros A [|c [|d r]] f g; [reflexivity|destruct c as [|c]; [reflexivity|]; repeat (destruct c as [c|c|]; try reflexivity)|].
  destruct (N.eqb_spec c 62) as [->|NE]; cbn [andb].
  - destruct (N.eqb_spec d 61) as [->|NE]; [reflexivity|]. destruct d as [|d]; [reflexivity|]. repeat (destruct d as [d|d|]; try reflexivity; try (exfalso; apply NE; reflexivity)).
  - destruct c as [|c]; [reflexivity|]. repeat (destruct c as [c|c|]; try reflexivity; try (exfalso; apply NE; reflexivity)).
Qed.
Lemma operator_ok : forall lang column m c r x, atstring m = false -> operator lang column m c r = Some x -> op_ok m c r x.
Proof.
  intros lang column m c r x A H. unfold operator in H. cbv zeta beta in H. rewrite hd62, hd60, hd6261 in H.
  destruct c as [|c]; [discriminate H|].
  do 7 (try (destruct c as [c|c|]; try discriminate H)).
  all: try (one_opt H).
  all: try (two_opt H).
  all: try (injection H as <-; apply op_done; [reflexivity|assumption|discriminate|code_lit]).
  - destruct (many (is 63) [63] r) as (u, v) eqn:E. cbn [fst snd] in H. injection H as <-. apply many_code in E as (? & ? & ?); [|intros; code1|discriminate|code_lit]. apply op_done; assumption.
  - injection H as <-. apply op_plain; [reflexivity| |discriminate|code_lit|]; destruct (startline m); try exact Logic.I; assumption.
  - destruct r as [|d r]; [injection H as <-; apply op_done; [reflexivity|assumption|discriminate|code_lit]|]. destruct (N.eqb_spec d 62) as [->|_].
    + change (45 :: 62 :: r) with ([45; 62] ++ r). one_opt H.
    + one_opt H.
  - destruct r as [|d [|e r]]; cbn beta iota in H.
    + one_opt H.
    + one_opt H.
    + destruct ((d =? 62) && (e =? 61)) eqn:Q.
      * apply andb_prop in Q as (Q1 & Q2). apply N.eqb_eq in Q1, Q2. subst d e. change (62 :: 62 :: 61 :: r) with ([62; 62; 61] ++ r). one_opt H.
      * one_opt H.
  - destruct r as [|d r]; [injection H as <-; apply op_done; [reflexivity|assumption|discriminate|code_lit]|].
    destruct (inLanguage lang C_FAMILY && (d =? 42)) eqn:Q.
    { apply andb_prop in Q as (_ & Q). apply N.eqb_eq in Q. subst d. injection H as <-. apply op_done; [reflexivity|assumption|discriminate|code_lit]. }
    destruct (N.eqb_spec d 46) as [->|_].
    { change (46 :: 46 :: r) with ([46; 46] ++ r). one_opt H. }
    destruct (digit d) eqn:D; [|injection H as <-; apply op_done; [reflexivity|assumption|discriminate|code_lit]].
    destruct (constants [46; d] r) as ((i, t), r2) eqn:E. injection H as <-. apply constants_app in E as (w & -> & -> & W).
    apply op_plain; [reflexivity|exact A|discriminate| |exact Logic.I]. apply Forall_app. split; [|apply number_code, W]. repeat constructor; try code1; unfold digit in D; code1.
  - destruct (many (is 10) [92] r) as (u, v) eqn:E. apply many_code in E as (? & ? & ?); [|intros; code1|discriminate|code_lit].
    destruct (Nat.ltb 1 (length u)); injection H as <-; [apply op_plain; auto; exact Logic.I|apply op_done; assumption].
  - destruct r as [|d r]; [one_opt H|]. destruct (N.eqb_spec d 60) as [->|_].
    + change (60 :: 60 :: r) with ([60; 60] ++ r). one_opt H.
    + one_opt H.
  - destruct r as [|d r]; [injection H as <-; apply op_done; [reflexivity|assumption|discriminate|code_lit]|].
    destruct (inLanguage lang OBJECTIVE_C && _) eqn:Q.
    { apply andb_prop in Q as (_ & Q). injection H as <-. apply op_done; [reflexivity|assumption|discriminate|]. repeat constructor; code1. }
    destruct (_ && name_start d) eqn:Q1.
    { apply andb_prop in Q1 as (_ & Q1). destruct (many name_char [64; d] r) as (u, v) eqn:E. injection H as <-. apply many_app in E as (w & -> & -> & W & _).
      apply op_plain; [reflexivity|exact A|discriminate| |exact Logic.I]. apply Forall_app. split; [|apply word_code, W]. repeat constructor; try code1; apply (name_code d); unfold name_char; rewrite Q1; apply orb_true_r. }
    destruct (_ && digit d) eqn:Q2.
    { apply andb_prop in Q2 as (_ & Q2). destruct (constants [64; d] r) as ((i, t), r2) eqn:E. injection H as <-. apply constants_app in E as (w & -> & -> & W).
      apply op_plain; [reflexivity|exact A|discriminate| |exact Logic.I]. apply Forall_app. split; [|apply number_code, W]. repeat constructor; try code1; unfold digit in Q2; code1. }
    destruct (_ && (d =? 39)) eqn:Q3.
    { apply andb_prop in Q3 as (_ & Q3). apply N.eqb_eq in Q3. subst d. injection H as <-. split; [reflexivity|]. split; [exact A|]. right. right. split; [reflexivity|]. split; [reflexivity|].
      unfold char_start, changetotextlexer. cbn. rewrite A. reflexivity. }
    destruct (_ && (d =? 34)) eqn:Q4.
    { apply andb_prop in Q4 as (_ & Q4). apply N.eqb_eq in Q4. subst d. injection H as <-. split; [reflexivity|]. split; [reflexivity|]. right. left. auto. }
    injection H as <-; apply op_done; [reflexivity|assumption|discriminate|code_lit].
Qed.
Lemma comment_cut : forall lang ms m r, atstring m = false -> cut lang ms m (comment_start lang (literals lang ms) m r) /\
  47 :: r = m_text (comment_start lang (literals lang ms) m r) ++ m_rest (comment_start lang (literals lang ms) m r) /\ atstring (m_main (comment_start lang (literals lang ms) m r)) = false.
Proof.
  intros lang ms m r A. unfold comment_start, changetotextlexer.
  destruct r as [|c r].
  { split; [|split; [reflexivity|exact A]]. apply (cut_slash lang ms m [47] []). left. repeat split; discriminate. }
  destruct (N.eq_dec c 47) as [->|N1].
  { destruct r as [|d r].
    - split; [|split; [reflexivity|exact A]]. eapply (cut_line lang ms m [47; 47]). left. auto.
    - destruct ((d =? 47) || (d =? 33)) eqn:Q.
      + split; [|split; [reflexivity|exact A]]. eapply (cut_line lang ms m [47; 47; d]). right. split; [|auto]. apply orb_prop in Q as [Q|Q]; apply N.eqb_eq in Q; subst d; auto.
      + split; [|split; [reflexivity|exact A]]. eapply (cut_line lang ms m [47; 47]). left. auto. }
  destruct (N.eq_dec c 42) as [->|N2].
  { assert (B : forall r2, cut lang ms m (Matched (match literals lang ms [47; 42] with Some k => k | None => BLOCK_COMMENT_START end) [47; 42] r2
        (Main false true (atstring m) (lastpos m) (prev m)) (Some (Textual BLOCK_COMMENT_END (onpreprocline m) (atstring m) [])))).
    { intros r2. eapply (cut_block lang ms m [47; 42] BLOCK_COMMENT_START BLOCK_COMMENT_END); auto. }
    destruct r as [|d r]; [split; [apply B|split; [reflexivity|exact A]]|].
    assert (M : forall (X : Type) (f : bytes -> X) (g : X), match r with 47 :: r3 => f r3 | _ => g end = match r with e :: r3 => if e =? 47 then f r3 else g | [] => g end).
    { intros X f g. destruct r as [|e r]; [reflexivity|]. destruct (N.eqb_spec e 47) as [->|NE]; [reflexivity|]. destruct e as [|e]; [reflexivity|]. repeat (destruct e as [e|e|]; try reflexivity; try (exfalso; apply NE; reflexivity)). }
    rewrite !M. clear M.
    assert (G : forall k e, d = 42 \/ d = 33 -> (k, e) = (JAVADOC_COMMENT_START, JAVADOC_COMMENT_END) \/ (k, e) = (DOXYGEN_COMMENT_START, DOXYGEN_COMMENT_END) ->
      forall x, x = (let '(k, e0, t, r0) := match r with e0 :: r3 => if e0 =? 47 then (WHOLE_COMMENT, None, [47; 42; d; 47], r3) else (k, Some e, [47; 42; d], r) | [] => (k, Some e, [47; 42; d], r) end in
          Matched match literals lang ms t with Some k => k | None => k end t r0 (match e0 with Some _ => Main false true (atstring m) (lastpos m) (prev m) | None => m end)
            (match e0 with Some e => Some (Textual e (onpreprocline m) (atstring m) []) | None => None end)) ->
        cut lang ms m x /\ 47 :: 42 :: d :: r = m_text x ++ m_rest x /\ atstring (m_main x) = false).
    { intros k e D K x ->. destruct r as [|z r].
      - split; [|split; [reflexivity|exact A]]. eapply (cut_block lang ms m [47; 42; d] k e); [right; split; [|discriminate]; destruct D as [-> | ->]; auto|tauto].
      - destruct (N.eqb_spec z 47) as [->|NE].
        + split; [|split; [reflexivity|exact A]]. apply (cut_whole lang ms m d). exact D.
        + split; [|split; [reflexivity|exact A]]. eapply (cut_block lang ms m [47; 42; d] k e); [right; split; [|exact NE]; destruct D as [-> | ->]; auto|tauto]. }
    destruct (inLanguage lang JAVA && (d =? 42)) eqn:J.
    { apply andb_prop in J as (_ & J). apply N.eqb_eq in J. eapply G; [left; exact J|left; reflexivity|reflexivity]. }
    destruct (_ && ((d =? 42) || (d =? 33))) eqn:K.
    { apply andb_prop in K as (_ & K). eapply G; [lia|right; reflexivity|reflexivity]. }
    split; [apply B|split; [reflexivity|exact A]]. }
  destruct (N.eq_dec c 61) as [->|N3].
  { split; [|split; [reflexivity|exact A]]. apply (cut_slash lang ms m [47; 61]). right. reflexivity. }
  assert (Q : forall (X : Type) (f g h : X), match c with 47 => f | 42 => g | 61 => h | _ => h end = h).
  { intros. destruct c as [|c]; [reflexivity|]. repeat (destruct c as [c|c|]; try reflexivity; try (exfalso; apply N1; reflexivity); try (exfalso; apply N2; reflexivity)). }
  match goal with |- cut _ _ _ ?x /\ _ => assert (E : x = Matched (retype lang ms [47] LINE_COMMENT_START) [47] (c :: r) m None) end.
  { destruct c as [|c]; [reflexivity|]. repeat (destruct c as [c|c|]; try reflexivity; try (exfalso; apply N1; reflexivity); try (exfalso; apply N2; reflexivity); try (exfalso; apply N3; reflexivity)). }
  rewrite E. split; [|split; [reflexivity|exact A]]. apply (cut_slash lang ms m [47] (c :: r)). left. auto.
Qed.
Lemma name_cut : forall lang ms m c r, atstring m = false -> name_start c = true -> cut lang ms m (name lang (literals lang ms) m c r) /\
  c :: r = m_text (name lang (literals lang ms) m c r) ++ m_rest (name lang (literals lang ms) m c r) /\ atstring (m_main (name lang (literals lang ms) m c r)) = false.
Proof.
  intros lang ms m c r A NS. unfold name. destruct (many name_char [c] r) as (t, r1) eqn:E. apply many_app in E as (w & -> & -> & W & _).
  assert (F : Forall code_char ([c] ++ w)). { apply word_code. constructor; [unfold name_char; rewrite NS; apply orb_true_r|exact W]. }
  assert (P : cut lang ms m (Matched (retype lang ms ([c] ++ w) NAME) ([c] ++ w) r1 (set_startline false m) None)) by (apply cut_retyped; [discriminate|exact F|exact Logic.I]).
  assert (PP : forall x, x = Matched NAME ([c] ++ w) r1 (set_startline false m) None ->
    cut lang ms m (Matched match literals lang ms (m_text x) with Some k => k | None => m_type x end (m_text x) (m_rest x) (m_main x) (m_push x)) /\
    c :: w ++ r1 = m_text x ++ m_rest x /\ atstring (m_main x) = false).
  { intros x ->. split; [exact P|]. split; [reflexivity|exact A]. }
  destruct r1 as [|d r1]; [exact (PP _ eq_refl)|]. destruct (N.eq_dec d 34) as [->|N1].
  - destruct (one_of ["L"; "U"; "u"; "u8"]%string ([c] ++ w)).
    { cbn [m_text m_type m_rest m_main m_push string_start]. split; [|split; [rewrite <- app_assoc; reflexivity|reflexivity]]. unfold changetotextlexer. cbn [set_startline onpreprocline atstring]. rewrite A.
      apply cut_string; [exact F|right; reflexivity|right; reflexivity]. }
    destruct (inLanguage lang CXX && _) eqn:Q; [|exact (PP _ eq_refl)]. apply andb_prop in Q as (L & Q).
    assert (R : exists q, [c] ++ w = q ++ [82]).
    { unfold one_of in Q. apply existsb_exists in Q as (x & I & Q). apply beqb_true in Q. rewrite <- Q. exists (removelast (txt x)). cbn in I. repeat (destruct I as [<-|I]; [vm_compute; reflexivity|]). destruct I. }
    destruct R as (q & R). unfold raw_string_start. destruct (many delimiter_char [] r1) as (dl, r2) eqn:E1. apply many_app in E1 as (d2 & E1 & -> & D & _). cbn in E1. subst d2.
    destruct (opt (is 40) _ r2) as (t2, r3) eqn:E2. rewrite <- app_assoc in E2.
    assert (OO : exists o, (o = [] \/ o = [40]) /\ t2 = (([c] ++ w) ++ [34] ++ dl) ++ o /\ r2 = o ++ r3).
    { clear -E2. destruct r2 as [|z r2]; cbn [opt] in E2; [|destruct (is 40 z) eqn:Z]; injection E2 as <- <-; [exists []; rewrite app_nil_r; auto| |exists []; rewrite app_nil_r; auto].
      unfold is in Z. apply N.eqb_eq in Z. subst z. exists [40]. auto. }
    destruct OO as (o & OO & -> & ->). cbn [m_text m_type m_rest m_main m_push]. unfold changetotextlexer. cbn [set_startline onpreprocline atstring]. rewrite A.
    rewrite R in *. replace (((q ++ [82]) ++ [34] ++ dl) ++ o) with ((q ++ [82]) ++ [34] ++ dl ++ o) by (rewrite <- !app_assoc; reflexivity).
    split; [apply cut_raw; assumption|]. split; [|reflexivity]. change (c :: w ++ 34 :: dl ++ o ++ r3) with (([c] ++ w) ++ 34 :: dl ++ o ++ r3). rewrite R. cbn [m_text m_rest app]. repeat (rewrite <- ?app_assoc; cbn [app]). reflexivity.
  - match goal with |- cut _ _ _ (Matched (match literals _ _ (m_text ?x) with Some _ => _ | None => _ end) _ _ _ _) /\ _ => assert (E : x = Matched NAME ([c] ++ w) (d :: r1) (set_startline false m) None) end.
    { destruct d as [|d]; [reflexivity|]. repeat (destruct d as [d|d|]; try reflexivity; try (exfalso; apply N1; reflexivity)). }
    rewrite E. exact (PP _ eq_refl).
Qed.
Lemma main_cut : forall lang ms column m c r a, atstring m = false -> main_rule lang (literals lang ms) column m c r = Some a ->
  cut lang ms m a /\ c :: r = m_text a ++ m_rest a /\ atstring (m_main a) = false.
Proof.
  intros lang ms column m c r a A H. unfold main_rule in H.
  destruct (N.eqb_spec c 34) as [->|_].
  { injection H as <-. split; [|split; reflexivity]. unfold string_start, changetotextlexer. cbn [set_startline onpreprocline atstring]. rewrite A. apply (cut_string lang ms m []); auto. }
  destruct (N.eqb_spec c 39) as [->|_].
  { injection H as <-. split; [|split; [reflexivity|exact A]]. unfold char_start, changetotextlexer. cbn [set_startline onpreprocline atstring]. rewrite A. apply (cut_char lang ms m []); auto. }
  destruct (digit c) eqn:D.
  { destruct (constants [c] r) as ((i, t), r2) eqn:E. injection H as <-. apply constants_app in E as (w & -> & -> & W). split; [|split; [reflexivity|exact A]].
    apply cut_plain; [discriminate| |destruct i; exact Logic.I]. constructor; [apply name_code; unfold name_char; rewrite D; reflexivity|apply number_code, W]. }
  destruct (name_start c) eqn:NS; [injection H as <-; apply name_cut; assumption|].
  destruct (N.eqb_spec c 47) as [->|N47]; [injection H as <-; apply comment_cut; assumption|].
  destruct ((c =? 32) || (c =? 9)) eqn:B.
  { destruct (many _ [c] r) as (t, r2) eqn:E. injection H as <-. apply many_code in E as (E1 & E2 & E3); [|intros; code1|discriminate|constructor; [code1|constructor]].
    split; [apply cut_plain; [assumption..|exact Logic.I]|]. split; [exact E1|exact A]. }
  destruct (N.eqb_spec c 10) as [->|N10].
  { injection H as <-. split; [|split; [reflexivity|exact A]]. apply cut_plain; [discriminate| |exact Logic.I]. constructor; [code1|constructor]. }
  destruct ((c <? 32) && negb (c =? 13)) eqn:K.
  { injection H as <-. split; [|split; [reflexivity|exact A]]. apply cut_control. unfold control. lia. }
  destruct (operator lang column m c r) as [x|] eqn:O; [|discriminate H]. injection H as <-. apply operator_ok in O as (O1 & O2 & O3); [|exact A].
  cbn [m_text m_rest m_main m_type m_push atstring]. split; [|split; assumption].
  destruct O3 as [(T1 & T2 & T3 & T4)|[(T1 & T2 & T3)|(T1 & T2 & T3)]].
  - rewrite T4. apply cut_retyped; assumption.
  - rewrite T3, T2, T1. apply (cut_string lang ms m [64]); [constructor; [code1|constructor]|right; reflexivity|left; auto].
  - rewrite T3, T2, T1. apply (cut_char lang ms m [64]); [constructor; [code1|constructor]|right; reflexivity].
Qed.
(** characters without a rule *)
Lemma main_none : forall lang lits column m c r, main_rule lang lits column m c r = None -> c < 256 -> c = 127 \/ c = 13.
Proof.
  intros lang lits column m c r H L.
  destruct (main_rule lang lits column m c r) eqn:E; [discriminate H|]. clear H. unfold main_rule in E.
  destruct (c =? 34) eqn:K1; [discriminate E|]. destruct (c =? 39) eqn:K2; [discriminate E|]. destruct (digit c) eqn:D; [destruct (constants [c] r) as ((i, t), r2); discriminate E|].
  destruct (name_start c) eqn:NS; [discriminate E|]. destruct (c =? 47) eqn:K3; [discriminate E|]. destruct (_ || _) eqn:K4; [destruct (many _ [c] r); discriminate E|].
  destruct (N.eqb_spec c 10); [discriminate E|]. destruct ((c <? 32) && negb (c =? 13)) eqn:K; [discriminate E|].
  destruct (operator lang column m c r) as [x|] eqn:O; [discriminate E|]. clear E. unfold operator in O. cbv zeta beta in O. unfold name_start, digit in *.
  assert (B : c < 128) by lia. clear L.
  destruct c as [|c]; [discriminate K|].
  do 7 (try (destruct c as [c|c|]; try discriminate O; try discriminate NS; try discriminate D; try discriminate K; try discriminate K1; try discriminate K2; try discriminate K3; try discriminate K4; try lia)).
  all: try lia; exfalso; revert O; clear; repeat match goal with
    | |- (let (_, _) := ?x in _) = _ -> _ => destruct x
    | |- (if ?b then _ else _) = _ -> _ => destruct b
    | |- Some _ = None -> _ => discriminate
    | |- (match ?x with _ => _ end) = _ -> _ => destruct x
    end.
Qed.
