(** From the lexer's tokens to the srcML and back. *)
From Verif Require Import Base Text_Model Text_Spec Text_Proofs Text_Proofs3 Api_Model Api_Spec Writer_Model Writer_Spec Writer_Proofs2 Writer_Proofs8 Root_Model Root_Spec Root_Proofs Root_Proofs3 Root_Proofs5 Root_Proofs8
  Parser_Model Parser_Spec Parser_Proofs3 Parser_View Parser_View2 Parser_View3 Parser_View4 Parser_View5 Source_Model Source_Spec Source_Proofs Source_Proofs2 Source_Proofs3 Source_Proofs4 Source_Elements Source_Tokens.
Local Open Scope N_scope.

(** ** The element table *)
Definition entry_b (x : nat * bytes * list (bytes * bytes)) : bool :=
  let '(i, n, al) := x in
  nc_b n && negb (hd 0 n =? 33) && negb (hd 0 n =? 63) && negb (beqb n (txt "escape")) &&
  forallb (fun p => nc_b (fst p) && negb (beqb (fst p) (txt "xmlns")) && negb (beqb (fst p) (txt "start")) && negb (beqb (fst p) (txt "end")) && chars_b (snd p)) al && distinct (map fst al).
Definition fine_entry (n : bytes) (al : list (bytes * bytes)) : Prop :=
  ncname n /\ plain_start n /\ n <> txt "escape" /\ fine_attrs al /\ Forall (fun p => ~ In 58 (fst p) /\ fst p <> txt "start" /\ fst p <> txt "end") al.
Lemma entry_b_ok : forall i n al, entry_b (i, n, al) = true -> fine_entry n al.
Proof.
  intros i n al H. unfold entry_b in H. apply andb_prop in H as (H & D). apply andb_prop in H as (H & F). apply andb_prop in H as (H & E). apply andb_prop in H as (H & Q2). apply andb_prop in H as (H & Q1).
  apply nc_b_ok in H. apply negb_true_iff in E, Q1, Q2. apply N.eqb_neq in Q1, Q2. rewrite forallb_forall in F. apply distinct_ok in D.
  assert (G : forall p, In p al -> ncname (fst p) /\ fst p <> txt "xmlns" /\ fst p <> txt "start" /\ fst p <> txt "end" /\ xml_chars (snd p)).
  { intros p I. specialize (F p I). apply andb_prop in F as (F & C). apply andb_prop in F as (F & F3). apply andb_prop in F as (F & F2). apply andb_prop in F as (F & F1).
    apply negb_true_iff in F1, F2, F3. split; [apply nc_b_ok, F|].
    assert (NE : forall a b, beqb a b = false -> a <> b) by (intros a b X ->; rewrite beqb_refl in X; discriminate X).
    repeat split; try (apply NE; assumption). apply chars_b_ok, C. }
  split; [exact H|]. split; [split; assumption|]. split; [intros ->; rewrite beqb_refl in E; discriminate E|]. split; [split; [|exact D]|]; apply Forall_forall; intros p I; destruct (G p I) as ((G1 & G2) & G3 & G4 & G5 & G6).
  - split; [exact G1|]. split; [apply not_declares; assumption|exact G6].
  - auto.
Qed.
Lemma table_fine : forall e i n al, In (i, n, al) (elements_of e) -> fine_entry n al.
Proof.
  assert (T : forallb entry_b element_table = true) by (vm_compute; reflexivity). rewrite forallb_forall in T.
  assert (E : forall e x, In x (elements_of e) -> entry_b x = true).
  { intros [| |k|c|] x I; cbn [elements_of] in I.
    - destruct I.
    - destruct I.
    - destruct (nth_error element_table k) as [y|] eqn:Q; [|destruct I]. destruct I as [<-|[]]. apply T. eapply nth_error_In, Q.
    - destruct I as [<-|[]]. destruct c; vm_compute; reflexivity.
    - destruct I as [<-|[<-|[]]]; vm_compute; reflexivity. }
  intros e i n al I. apply (entry_b_ok i), (E e), I.
Qed.
Lemma position_value : forall v, Forall (fun c => In c (txt "0123456789:INVALID_POS()")) v -> xml_chars v.
Proof. intros v H. eapply Forall_impl; [|exact H]. intros c I. cbn in I. repeat (destruct I as [<-|I]; [left; discriminate|]). destruct I. Qed.
(** a prefix for the position attributes *)
Definition fine_position (p : bytes) : Prop := p = [] \/ ncname p /\ p <> txt "xmlns".
Lemma positions_fine : forall p n al pl, fine_position p -> fine_entry n al -> positions p pl -> fine_attrs (al ++ pl).
Proof.
  intros p n al pl FP (_ & _ & _ & (F & D) & G) P. destruct P as [->|(a & b & -> & A & B)]; [rewrite app_nil_r; split; assumption|].
  apply position_value in A, B.
  set (nm := fun m : bytes => match p with [] => m | _ => p ++ [58] ++ m end).
  assert (NM : forall m, ncname m -> m <> txt "xmlns" -> qname (nm m) /\ declares (nm m) = None).
  { intros m (M1 & M2) X. unfold nm. destruct p as [|c p]; [split; [exact M1|apply not_declares; assumption]|].
    destruct FP as [FP|((P1 & P2) & P3)]; [discriminate FP|]. split; [|apply not_declares_prefixed; assumption].
    split; [discriminate|]. apply Forall_app. split; [apply P1|]. apply Forall_app. split; [|apply M1]. constructor; [|constructor]. unfold name_byte; vm_compute; repeat split; discriminate. }
  assert (OUT : forall m, m = txt "start" \/ m = txt "end" -> ~ In (nm m) (map fst al)).
  { intros m M I. apply in_map_iff in I as ((q, w) & Q & I). rewrite Forall_forall in G. destruct (G (q, w) I) as (G1 & G2 & G3). cbn [fst] in Q, G1, G2, G3. subst q. unfold nm in G1, G2, G3.
    destruct p as [|c p]; [destruct M; contradiction|]. apply G1, in_or_app. right. left. reflexivity. }
  destruct (NM (txt "start")) as (S1 & S2); [name_ok|discriminate|]. destruct (NM (txt "end")) as (E1 & E2); [name_ok|discriminate|].
  split.
  - apply Forall_app. split; [exact F|]. constructor; [split; [exact S1|split; [exact S2|exact A]]|]. constructor; [split; [exact E1|split; [exact E2|exact B]]|constructor].
  - rewrite map_app. apply Api_Proofs3.NoDup_app_disj; [exact D| |].
    + change (map fst _) with [nm (txt "start"); nm (txt "end")]. constructor; [|constructor; [intros []|constructor]]. intros [Q|[]]. unfold nm in Q. destruct p; [discriminate Q|].
      apply app_inv_head in Q. discriminate Q.
    + intros x I [J|[J|[]]]; subst x; revert I; [apply (OUT (txt "start"))|apply (OUT (txt "end"))]; auto.
Qed.

(** ** Trees from the calls *)
Definition fine_ev (e : ev) : Prop :=
  match e with
  | Txt x => Forall (fun c => 32 <= c \/ c = 9 \/ c = 10) x
  | Esc x => exists c, x = [c] /\ c < 32
  | _ => True
  end.
Definition levels (n : nat) (l : list ev) : Prop :=
  (forall k, (closes (firstn k l) <= opens (firstn k l) + n)%nat) /\ closes l = (opens l + n)%nat.
Fixpoint joined_by (fs : list (list tree)) : list token :=
  match fs with [] => [] | [f] => flat_map tokens_of f | f :: r => flat_map tokens_of f ++ TEnd :: joined_by r end.
Lemma build : forall pos l k, fine_position pos -> printed pos l k -> Forall fine_ev l -> forall n, levels n l ->
  exists f fs s ss, k = joined_by (f :: fs) /\ length fs = n /\ shows f s /\ Forall2 shows fs ss /\ recovered l = s ++ concat ss.
Proof.
  intros pos l k FP P. induction P as [|e i nm al pl l k I PP P IH|l k P IH|x l k P IH|l k P IH|c x l k P IH]; intros F n (L1 & L2).
  - cbn in L2. exists [], [], [], []. subst n. repeat split; constructor.
  - destruct (IH (Forall_inv_tail F) (S n)) as (f & fs & s & ss & -> & LN & SF & SS & R).
    { split; [|cbn in L2 |- *; unfold closes, opens in *; cbn in *; lia]. intros j. specialize (L1 (S j)). unfold closes, opens in *. cbn in *. lia. }
    destruct fs as [|g fs]; [discriminate LN|]. inversion SS as [|x y z w SG SS2]; subst.
    exists (TreeElem i nm al (attrs pl) f :: g), fs, (s ++ y), w. pose proof (table_fine e i nm al I) as (T1 & T2 & T3 & T4 & T5).
    split; [|split; [cbn in LN; lia|split; [|split; [exact SS2|]]]].
    + destruct fs as [|h fs]; cbn [joined_by flat_map tokens_of app]; rewrite <- !app_assoc; cbn [app]; reflexivity.
    + apply sh_elem; try assumption. eapply positions_fine; [exact FP|repeat split; eassumption || apply T2 || apply T4 || apply T1|exact PP].
    + unfold recovered in *. cbn [map concat app]. rewrite R. cbn [concat]. rewrite app_assoc. reflexivity.
  - destruct n as [|n]; [specialize (L1 1%nat); unfold closes, opens in L1; cbn in L1; lia|].
    destruct (IH (Forall_inv_tail F) n) as (f & fs & s & ss & -> & LN & SF & SS & R).
    { split; [|unfold closes, opens in *; cbn in *; lia]. intros j. specialize (L1 (S j)). unfold closes, opens in *. cbn in *. lia. }
    exists [], (f :: fs), [], (s :: ss). split; [reflexivity|]. split; [cbn; lia|]. split; [constructor|]. split; [constructor; assumption|]. exact R.
  - destruct (IH (Forall_inv_tail F) n) as (f & fs & s & ss & -> & LN & SF & SS & R).
    { split; [|unfold closes, opens in *; cbn in *; lia]. intros j. specialize (L1 (S j)). unfold closes, opens in *. cbn in *. lia. }
    exists (TreeText x :: f), fs, (x ++ s), ss. split; [destruct fs; reflexivity|]. split; [exact LN|]. split; [constructor; [exact (Forall_inv F)|exact SF]|]. split; [exact SS|].
    unfold recovered in *. cbn [map concat]. rewrite R, app_assoc. reflexivity.
  - apply IH; [exact (Forall_inv_tail F)|]. split; [|unfold closes, opens in *; cbn in *; lia]. intros j. specialize (L1 (S j)). unfold closes, opens in *. cbn in *. lia.
  - destruct (IH (Forall_inv_tail F) n) as (f & fs & s & ss & -> & LN & SF & SS & R).
    { split; [|unfold closes, opens in *; cbn in *; lia]. intros j. specialize (L1 (S j)). unfold closes, opens in *. cbn in *. lia. }
    destruct (Forall_inv F) as (d & Q & LT). injection Q as -> ->. rewrite (escape_attr_control true d LT). fold (control_value d).
    exists (TreeEmpty 0 (txt "escape") [(txt "char", control_value d)] :: f), fs, (d :: s), ss. split; [destruct fs; reflexivity|]. split; [exact LN|]. split; [constructor; assumption|]. split; [exact SS|].
    unfold recovered in *. cbn [map concat app]. rewrite R. reflexivity.
Qed.
Lemma build_all : forall pos l k, fine_position pos -> printed pos l k -> Forall fine_ev l -> never_over_closed l -> opens l = closes l ->
  exists ts, k = flat_map tokens_of ts /\ shows ts (recovered l).
Proof.
  intros pos l k FP P F N B. destruct (build pos l k FP P F 0) as (f & fs & s & ss & -> & LN & SF & SS & ->).
  { split; [|lia]. intros j. specialize (N j). lia. }
  destruct fs; [|discriminate LN]. inversion SS; subst. exists f. split; [reflexivity|]. cbn [concat]. rewrite app_nil_r. exact SF.
Qed.
(** what the lexer delivers: control characters one by one, and nothing else with control characters *)
Definition lexed (src : list ltok) : Prop :=
  Forall (fun t => match l_type t with
                   | Lcontrol => exists c, l_text t = [c] /\ c < 32
                   | _ => Forall (fun c => 32 <= c \/ c = 9 \/ c = 10) (l_text t)
                   end) src.
Lemma stream_fine : forall o rs src cs l e s, pull o rs cs (construct src) = (l, e, s) -> ~ In Fnop (log s) -> ~ In Fmacro (log s) -> lexed src -> Forall fine_ev (outputs l).
Proof.
  intros o rs src cs l e s P N1 N2 LX.
  assert (KO : forall t, In t l -> kind_ok t).
  { destruct (parse_run _ _ _ _ _ _ _ P) as [x [b [R [A _]]]]. pose proof (K_run _ _ _ N1 N2 R U_first K_first) as Kv.
    intros t H. apply Kv. rewrite A. right. apply in_or_app. left. exact H. }
  assert (NE : forall t, In t l -> o_type t <> TEof).
  { clear -P. revert l e s P. generalize (construct src) as s0. induction cs as [|c cs IH]; intros s0 l e s P; cbn [pull] in P; [injection P as <- _ _; intros t []|].
    destruct (nextToken o rs c s0) as [s1|y s1| |]; try (injection P as <- _ _; intros t []).
    destruct (tb s1) as [|t1 r1]; [injection P as <- _ _; intros t []|]. destruct (ttype_eq_dec (o_type t1) TEof) as [Q|Q]; [injection P as <- _ _; intros t []|].
    destruct (pull o rs cs s1) as [[l1 e1] s2] eqn:E. injection P as <- <- <-. intros t [<-|I]; [exact Q|]. eapply IH; eassumption. }
  pose proof (stream_from o rs src cs l e s P) as FR.
  unfold outputs. apply Forall_concat, Forall_map, Forall_forall. intros t I. specialize (KO t I). specialize (NE t I). specialize (FR t I).
  unfold kind_ok in KO. unfold from in FR. unfold outputToken.
  unfold lexed in LX. rewrite Forall_forall in LX. destruct (o_type t) as [k| |e0] eqn:T; [|contradiction|].
  - destruct FR as (x & J & K & X). specialize (LX x J). rewrite K, X in LX. destruct k, (o_cat t); try destruct KO; constructor; try constructor; exact LX.
  - destruct e0, (o_cat t); try contradiction; try rewrite KO; repeat constructor.
Qed.
Lemma round_trip : forall extract a u lang encoding hash o rs src cs l s tks,
  usable a (parse_start a (wu u) lang encoding) -> clean_opt hash -> fine_unit a (parse_end a (wu u) lang encoding hash) -> lexed src ->
  pull o rs cs (construct src) = (l, AtEof, s) -> (forall f, In f (log s) -> f = Fcomment \/ f = Fouter) ->
  printed (Writer_Spec.prefix_of a (parse_start a (wu u) lang encoding) POS) (outputs l) tks ->
  exists v, parse_unit extract a u lang encoding hash tks = Ok (ST_OK, v) /\
    (exists ev, xml_document (uo_srcml (wu v)) ev /\ extract_src ev = Ok (source src)) /\
    (uo_src (wu u) = None -> (forall ev, xml_document (uo_srcml (wu v)) ev -> extract_src ev = Ok (extract (uo_srcml (wu v)))) ->
     uo_src (wu v) = Some (source src) /\ uo_loc (wu v) = Z.of_nat (loc_written (source src))).
Proof.
  intros extract a u lang encoding hash o rs src cs l s tks U H FU LX P LG PR.
  assert (N1 : ~ In Fnop (log s)) by (intros I; destruct (LG _ I); discriminate).
  assert (N2 : ~ In Fmacro (log s)) by (intros I; destruct (LG _ I); discriminate).
  destruct (stream_balance _ _ _ _ _ _ _ P LG) as (B1 & B2). specialize (B2 eq_refl).
  destruct (stream_written _ _ _ _ _ _ _ P N1 N2) as (_ & W). specialize (W eq_refl).
  assert (FP : fine_position (Writer_Spec.prefix_of a (parse_start a (wu u) lang encoding) POS)).
  { destruct FU as (NS & _). unfold Writer_Spec.prefix_of, prefix_at. change (so_ns (unit_out a (parse_start a (wu u) lang encoding))) with (so_ns (unit_out a (parse_end a (wu u) lang encoding hash))).
    destruct (nth_error _ POS) as [n|] eqn:E; [|left; reflexivity].
    pose proof (proj1 (Forall_forall _ _) NS n (nth_error_In _ _ E)) as ([Q|(Q1 & _ & Q2 & _)] & _); [left; exact Q|right; auto]. }
  destruct (build_all _ _ _ FP PR (stream_fine _ _ _ _ _ _ _ P N1 N2 LX) B1 B2) as (ts & -> & SH).
  rewrite W in SH. apply source_kept; assumption.
Qed.
