(** The list of transformations of an archive (C53), and marking through the calls (C51). *)
From Verif Require Import Base Text_Model Text_Spec Text_Proofs3 Api_Model Transform_Model Transform_Spec Transform_Trees Transform_Marks Transform_Results Transform_Whole.
Local Open Scope N_scope.

(** ** Specification of C53 *)
(** a transformation as it is asked for: the call that appends it, and the calls that follow for it *)
Record group := Group { g_start : tcall; g_more : list tcall }.
Definition is_param (c : tcall) : Prop := match c with AppendParam _ _ | AppendStringParam _ _ => True | _ => False end.
(** parameters: name, value, ... *)
Definition params_of (l : list tcall) : list bytes :=
  flat_map (fun c => match c with AppendParam n v => [n; v] | AppendStringParam n v => [n; txt """" ++ v ++ txt """"] | _ => [] end) l.
(** the attribute for the results of an XPath *)
Definition attribute_of (l : list tcall) : option (bytes * bytes * bytes * bytes) :=
  match find (fun c => match c with AppendAttribute _ _ _ _ _ => true | _ => false end) l with
  | Some (AppendAttribute _ p u n v) => Some (p, u, n, v)
  | _ => None
  end.
Definition blank (p u n v : bytes) : Prop := p = [] /\ u = [] /\ n = [] /\ v = [].
(** an attribute that is not blank follows an XPath without one, at most once *)
Inductive follows (x : option bytes) : list tcall -> Prop :=
| Done : follows x []
| Param c l : is_param c -> follows x l -> follows x (c :: l)
| Attribute y p u n v l : x = Some y -> ~ blank p u n v -> follows None l -> follows x (AppendAttribute y p u n v :: l).
(** the expression that can still get an attribute *)
Definition open_xpath (c : tcall) : option bytes := match c with AppendXPath x | AppendElement x _ _ _ => Some x | _ => None end.
Definition well_formed (q : group) : Prop :=
  follows (open_xpath (g_start q)) (g_more q) /\
  match g_start q with
  | AppendXPath _ | AppendElement _ _ _ _ | AppendXslt _ | AppendRng _ => True
  | AppendAttribute x p u n v => ~ blank p u n v
  | _ => False
  end.
(** what the group is to do *)
Definition means (q : group) : item :=
  Item match g_start q with
       | AppendXPath x => match attribute_of (g_more q) with
                          | Some (p, u, n, v) => TXPath (XPathT x [] None p u n v None)
                          | None => TXPath (XPathT x [] None [] [] [] [] None)
                          end
       | AppendElement x ep eu e => match attribute_of (g_more q) with
                                    | Some (p, u, n, v) => TXPath (XPathT x e (Some (Some ep, eu)) p u n v None)
                                    | None => TXPath (XPathT x e (Some (Some ep, eu)) [] [] [] [] None)
                                    end
       | AppendAttribute x p u n v => TXPath (XPathT x [] None p u n v (Some (Some p, u)))
       | AppendXslt s => TXslt s
       | AppendRng s => TRng s
       | _ => TRng 0
       end (params_of (g_more q)).
(** a group that starts with an attribute is not taken for part of the one before *)
Definition apart_from (q r : group) : Prop :=
  match g_start r with AppendAttribute x _ _ _ _ => open_xpath (g_start q) = Some x -> attribute_of (g_more q) <> None | _ => True end.
Inductive separate : list group -> Prop :=
| NoGroup : separate []
| OneGroup q : separate [q]
| MoreGroups q r l : apart_from q r -> separate (r :: l) -> separate (q :: r :: l).
Definition calls (q : group) : list tcall := g_start q :: g_more q.
(** there is a transformation: one was appended after the transformations were cleared last *)
Definition appends (c : tcall) : Prop := match c with AppendParam _ _ | AppendStringParam _ _ | Clear => False | _ => True end.
Definition some_appended (cs : list tcall) : Prop := exists a c b, cs = a ++ c :: b /\ appends c /\ ~ In Clear b.

(** ** Proofs *)
Lemma truns_app a b l : truns (a ++ b) l = truns b (truns a l).
Proof. unfold truns. apply fold_left_app. Qed.
Lemma append_attribute_last l p ps x ap u n v : append_attribute (l ++ [Item (TXPath p) ps]) x ap u n v =
  if beqb (x_xpath p) x && (empty (x_attr_prefix p) && empty (x_attr_uri p) && empty (x_attr_name p) && empty (x_attr_value p))
  then l ++ [Item (TXPath (XPathT (x_xpath p) (x_element p) (x_element_ns p) ap u n v (x_attr_ns p))) ps]
  else (l ++ [Item (TXPath p) ps]) ++ [Item (TXPath (xpath_attribute x ap u n v)) []].
Proof. unfold append_attribute. rewrite rev_app_distr. cbn [rev app]. rewrite rev_involutive. reflexivity. Qed.
Lemma append_param_last l it n v : append_param (l ++ [it]) n v = (ST_OK, l ++ [Item (i_trans it) (i_params it ++ [n; v])]).
Proof. unfold append_param. rewrite rev_app_distr. cbn [rev app]. rewrite rev_involutive. reflexivity. Qed.
Lemma params_run x more l t ps : follows x more -> attribute_of more = None ->
  truns more (l ++ [Item t ps]) = l ++ [Item t (ps ++ params_of more)].
Proof.
  revert ps. induction more as [|c more IH]; intros ps F A; [cbn; rewrite app_nil_r; reflexivity|]. inversion F as [|? ? P F'|? ? ? ? ? ? ? ? ?]; subst.
  - destruct c; try destruct P; cbn [truns fold_left tstep snd]; rewrite append_param_last; cbn [snd i_trans i_params]; fold (truns more); rewrite IH;
      [|exact F'|exact A| |exact F'|exact A]; cbn [params_of flat_map]; fold (params_of more); rewrite <- app_assoc; reflexivity.
  - discriminate A.
Qed.
Lemma no_more x more : follows x more -> x = None -> attribute_of more = None.
Proof.
  induction 1 as [x|x c l P F IH|x y p u n v l E]; intros N; [reflexivity| |congruence]. unfold attribute_of in *. cbn. destruct c; try destruct P; exact (IH N).
Qed.
Lemma beqb_same (s : bytes) : beqb s s = true.
Proof. apply beqb_refl. Qed.
Lemma attribute_run y e ens more l ps p u n v : follows (Some y) more -> attribute_of more = Some (p, u, n, v) ->
  truns more (l ++ [Item (TXPath (XPathT y e ens [] [] [] [] None)) ps]) = l ++ [Item (TXPath (XPathT y e ens p u n v None)) (ps ++ params_of more)].
Proof.
  revert ps. induction more as [|c more IH]; intros ps F A; [discriminate A|]. inversion F as [|? ? P F'|? ? ? ? ? ? Ey Nb F']; subst.
  - destruct c; try destruct P; cbn [truns fold_left tstep snd]; rewrite append_param_last; cbn [snd i_trans i_params]; fold (truns more); rewrite IH;
      [|exact F'|exact A| |exact F'|exact A]; cbn [params_of flat_map]; fold (params_of more); rewrite <- app_assoc; reflexivity.
  - injection Ey as <-. unfold attribute_of in A. cbn in A. injection A as <- <- <- <-. cbn [truns fold_left tstep snd]. rewrite append_attribute_last. cbn [x_xpath x_attr_prefix x_attr_uri x_attr_name x_attr_value x_element x_element_ns x_attr_ns].
    rewrite beqb_same. cbn [empty andb]. fold (truns more). rewrite (params_run None); [reflexivity|exact F'|exact (no_more _ _ F' eq_refl)].
Qed.
(** the state of the list with respect to an attribute *)
Definition takes (l : list item) (x : bytes) : Prop :=
  exists before p ps, l = before ++ [Item (TXPath p) ps] /\ x_xpath p = x /\ blank (x_attr_prefix p) (x_attr_uri p) (x_attr_name p) (x_attr_value p).
Lemma append_new l x p u n v : ~ takes l x -> append_attribute l x p u n v = l ++ [Item (TXPath (xpath_attribute x p u n v)) []].
Proof.
  intros H. destruct l as [|i l0 _] using rev_ind; [reflexivity|]. destruct i as [[q|s|s] ps]; [|unfold append_attribute; rewrite rev_app_distr; reflexivity ..].
  rewrite append_attribute_last. destruct (beqb (x_xpath q) x && _) eqn:E; [|reflexivity]. destruct H. apply andb_prop in E as (E1 & E2).
  apply beqb_true in E1. exists l0, q, ps. split; [reflexivity|]. split; [exact E1|]. unfold blank.
  destruct (x_attr_prefix q), (x_attr_uri q), (x_attr_name q), (x_attr_value q); try discriminate E2. auto.
Qed.
Lemma group_run q l : well_formed q -> (match g_start q with AppendAttribute x _ _ _ _ => ~ takes l x | _ => True end) ->
  truns (calls q) l = l ++ [means q].
Proof.
  intros (F & S) T. destruct q as [c more]. unfold calls, means. cbn [g_start g_more] in *. cbn [truns fold_left]. fold (truns more).
  destruct c as [x|x ep eu e|x p u n v|s|s| | |]; try contradiction; cbn [tstep snd]; cbn [open_xpath] in F.
  - destruct (attribute_of more) as [[[[p u] n] v]|] eqn:A; [apply (attribute_run x [] None more l [] p u n v F A)|exact (params_run _ _ _ _ _ F A)].
  - destruct (attribute_of more) as [[[[p u] n] v]|] eqn:A; [apply (attribute_run x e _ more l [] p u n v F A)|exact (params_run _ _ _ _ _ F A)].
  - rewrite (append_new _ _ _ _ _ _ T). exact (params_run _ _ _ _ _ F (no_more _ _ F eq_refl)).
  - exact (params_run _ _ _ _ _ F (no_more _ _ F eq_refl)).
  - exact (params_run _ _ _ _ _ F (no_more _ _ F eq_refl)).
Qed.
Lemma found_attribute x more p u n v : follows x more -> attribute_of more = Some (p, u, n, v) -> ~ blank p u n v.
Proof.
  induction 1 as [x|x c l P F IH|x y p' u' n' v' l E Nb]; intros A; [discriminate A| |].
  - apply IH. unfold attribute_of in *. cbn in A. destruct c; try destruct P; exact A.
  - unfold attribute_of in A. cbn in A. injection A as <- <- <- <-. exact Nb.
Qed.
Lemma means_takes q l x : well_formed q -> takes (l ++ [means q]) x -> open_xpath (g_start q) = Some x /\ attribute_of (g_more q) = None.
Proof.
  intros (F & S) (b & p & ps & E & X & B). apply app_inj_tail in E as (_ & E). unfold means in E. destruct q as [c more]. cbn [g_start g_more] in *.
  destruct c as [y|y ep eu e|y ap u n v|s|s| | |]; try contradiction; try discriminate E; cbn [open_xpath] in *.
  - destruct (attribute_of more) as [[[[ap u] n] v]|] eqn:A; injection E as <- <-; cbn in X, B; subst; [|auto]. destruct (found_attribute _ _ _ _ _ _ F A B).
  - destruct (attribute_of more) as [[[[ap u] n] v]|] eqn:A; injection E as <- <-; cbn in X, B; subst; [|auto]. destruct (found_attribute _ _ _ _ _ _ F A B).
  - injection E as <- <-. cbn in B. destruct S. exact B.
Qed.
Lemma groups_run qs : Forall well_formed qs -> separate qs -> forall l, (match qs with q :: _ => match g_start q with AppendAttribute x _ _ _ _ => ~ takes l x | _ => True end | [] => True end) ->
  truns (flat_map calls qs) l = l ++ map means qs.
Proof.
  induction qs as [|q qs IH]; intros W S l T; [cbn; rewrite app_nil_r; reflexivity|]. cbn [flat_map map]. rewrite truns_app, (group_run q l (Forall_inv W) T), IH.
  - rewrite <- app_assoc. reflexivity.
  - exact (Forall_inv_tail W).
  - inversion S; [constructor|assumption].
  - inversion S as [| |? r qs' A S']; [exact Logic.I|]. subst. unfold apart_from in A. destruct (g_start r); auto.
    intros H. destruct (means_takes q l _ (Forall_inv W) H) as (H1 & H2). exact (A H1 H2).
Qed.
Lemma list_ok junk l qs : Forall well_formed qs -> separate qs -> truns (junk ++ Clear :: flat_map calls qs) l = map means qs.
Proof.
  intros W S. rewrite truns_app. cbn [truns fold_left tstep snd]. fold (truns (flat_map calls qs)). rewrite groups_run; [reflexivity|exact W|exact S|].
  destruct qs as [|q qs]; [exact Logic.I|]. destruct (g_start q); try exact Logic.I. intros (b & p & ps & E & _). destruct b; discriminate E.
Qed.
Lemma fresh_ok qs : Forall well_formed qs -> separate qs -> truns (flat_map calls qs) [] = map means qs.
Proof. exact (list_ok [] []  qs). Qed.
(** the status *)
Lemma append_nonempty l x p u n v : append_attribute l x p u n v <> [].
Proof.
  destruct l as [|i l0 _] using rev_ind; [discriminate|]. destruct i as [[q|s|s] ps]; [rewrite append_attribute_last; destruct (_ && _)|unfold append_attribute; rewrite rev_app_distr; cbn ..];
    intros E; try (apply app_eq_nil in E as (_ & E); discriminate E).
Qed.
Lemma runs_empty cs : truns cs [] = [] <-> ~ some_appended cs.
Proof.
  induction cs as [|c cs IH] using rev_ind; [split; [intros _ (a & d & b & E & _); destruct a; discriminate E|reflexivity]|].
  rewrite truns_app. cbn [truns fold_left]. fold (truns cs []).
  assert (Sn : forall a d b, cs ++ [c] = a ++ d :: b -> (d = c /\ b = []) \/ exists b', b = b' ++ [c] /\ cs = a ++ d :: b').
  { intros a d b E. destruct b as [|e b' _] using rev_ind; [left; apply app_inj_tail in E as (_ & ->); auto|]. right. exists b'.
    rewrite app_comm_cons, app_assoc in E. apply app_inj_tail in E as (E & ->). auto. }
  assert (New : appends c -> some_appended (cs ++ [c])) by (intros Ac; exists cs, c, []; split; [reflexivity|]; split; [exact Ac|intros []]).
  assert (Same : is_param c -> (some_appended (cs ++ [c]) <-> some_appended cs)).
  { intros P. split.
    - intros (a & d & b & E & A & Nb). destruct (Sn a d b E) as [(-> & ->)|(b' & -> & ->)]; [destruct c; try destruct P; destruct A|]. exists a, d, b'. split; [reflexivity|].
      split; [exact A|]. intros I. apply Nb. apply in_or_app. left. exact I.
    - intros (a & d & b & -> & A & Nb). exists a, d, (b ++ [c]). rewrite <- app_assoc. split; [reflexivity|]. split; [exact A|]. intros I. apply in_app_or in I as [I|[I|[]]]; [exact (Nb I)|]. subst. destruct P. }
  destruct c; cbn [tstep snd].
  1,2,4,5: split; [intros E; apply app_eq_nil in E as (_ & E); discriminate E|intros H; destruct H; apply New; exact Logic.I].
  - split; [intros E; destruct (append_nonempty _ _ _ _ _ _ E)|intros H; destruct H; apply New; exact Logic.I].
  - rewrite (Same Logic.I), <- IH. unfold append_param. destruct (truns cs []) as [|i l0 _] using rev_ind; [cbn; tauto|]. rewrite rev_app_distr. cbn [rev app snd].
    split; intros E; apply app_eq_nil in E as (_ & E); discriminate E.
  - rewrite (Same Logic.I), <- IH. unfold append_param. destruct (truns cs []) as [|i l0 _] using rev_ind; [cbn; tauto|]. rewrite rev_app_distr. cbn [rev app snd].
    split; intros E; apply app_eq_nil in E as (_ & E); discriminate E.
  - split; [intros _ (a & d & b & E & A & Nb)|reflexivity]. destruct (Sn a d b E) as [(-> & ->)|(b' & -> & ->)]; [destruct A|]. apply Nb. apply in_or_app. right. left. reflexivity.
Qed.
Lemma status_ok cs c : (fst (tstep (truns cs []) c) = ST_OK \/ fst (tstep (truns cs []) c) = ST_NO_TRANSFORMATION) /\
  (fst (tstep (truns cs []) c) = ST_NO_TRANSFORMATION <-> is_param c /\ ~ some_appended cs) /\
  (fst (tstep (truns cs []) c) = ST_NO_TRANSFORMATION -> snd (tstep (truns cs []) c) = truns cs []).
Proof.
  rewrite <- runs_empty.
  assert (P : forall n v, (fst (append_param (truns cs []) n v) = ST_OK \/ fst (append_param (truns cs []) n v) = ST_NO_TRANSFORMATION) /\
    (fst (append_param (truns cs []) n v) = ST_NO_TRANSFORMATION <-> True /\ truns cs [] = []) /\
    (fst (append_param (truns cs []) n v) = ST_NO_TRANSFORMATION -> snd (append_param (truns cs []) n v) = truns cs [])).
  { intros n v. destruct (truns cs []) as [|i l0 _] using rev_ind; [cbn; split; [auto|split; [tauto|auto]]|]. rewrite append_param_last. cbn.
    split; [auto|]. split; [|discriminate]. split; [discriminate|]. intros (_ & E). apply app_eq_nil in E as (_ & E). discriminate E. }
  destruct c; cbn [tstep is_param]; try exact (P _ _);
    (cbn [fst snd]; split; [left; reflexivity|]; split; [split; [discriminate|intros ([] & _)]|discriminate]).
Qed.

(** ** Marking (C51) *)
(** the text of a tree *)
Fixpoint text_content (t : tree) : bytes := match t with Node _ l ch => (match n_kind l with Text => n_content l | _ => [] end) ++ flat_map text_content ch end.
Lemma attrs_no_text (old : list nat) (lbs : list label) a : Forall (fun lb => n_kind lb = Attr) lbs ->
  Forall2 (fun lb t => root_label t = lb /\ children t = [] /\ ~ In (root_id t) old) lbs a -> flat_map text_content a = [].
Proof.
  intros K F. induction F as [|lb [i l ch] lbs a (E & C & _) F IH]; [reflexivity|]. cbn in E, C. subst l ch. cbn. rewrite (Forall_inv K). exact (IH (Forall_inv_tail K)).
Qed.
Lemma wrapped_text old e lbs s t t' : n_kind e <> Text -> Forall (fun lb => n_kind lb = Attr) lbs -> wrapped old e lbs s t t' -> text_content t' = text_content t.
Proof.
  intros Ke Kl. revert t'. induction t as [j l ch IH] using tree_in. intros t' W.
  assert (K : forall ch', Forall2 (wrapped old e lbs s) ch ch' -> flat_map text_content ch' = flat_map text_content ch).
  { clear W. induction ch as [|c ch IHc]; intros ch' F; inversion F as [|? ? ? ? A B]; subst; [reflexivity|]. cbn. rewrite (IH c (or_introl eq_refl) _ A).
    rewrite (IHc (fun d D => IH d (or_intror D)) _ B). reflexivity. }
  inversion W as [? ? ? ch' N1 F|? ? ? ch' n a N1 F N2 A]; subst; cbn [text_content].
  - rewrite (K _ F). reflexivity.
  - rewrite flat_map_app, (attrs_no_text _ _ _ Kl A). cbn [flat_map text_content app]. rewrite (K _ F), app_nil_r. destruct (n_kind e); [reflexivity|destruct Ke; reflexivity|reflexivity|reflexivity].
Qed.
Lemma attributed_text old lb s t t' : n_kind lb <> Text -> attributed old lb s t t' -> text_content t' = text_content t.
Proof.
  intros Kl. revert t'. induction t as [j l ch IH] using tree_in. intros t' W.
  assert (K : forall c c', incl c ch -> Forall2 (attributed old lb s) c c' -> flat_map text_content c' = flat_map text_content c).
  { clear W. intros c c' Ic F. induction F as [|x y c c' A F IHF]; [reflexivity|]. cbn. rewrite (IH x (Ic x (or_introl eq_refl)) _ A).
    rewrite (IHF (fun z Z => Ic z (or_intror Z))). reflexivity. }
  inversion W as [? ? ? ch' N1 F|? ? ? a a' c c' n N1 Ke Ec Fa Fc A C N2]; subst; cbn [text_content].
  - rewrite (K _ _ (fun z Z => Z) F). reflexivity.
  - rewrite !flat_map_app, (K a a' (fun z Z => in_or_app _ _ _ (or_introl Z)) A), (K c c' (fun z Z => in_or_app _ _ _ (or_intror Z)) C). cbn [flat_map text_content app].
    destruct (n_kind lb); [reflexivity|destruct Kl; reflexivity|reflexivity|reflexivity].
Qed.
(** one XPath that marks with an element *)
Lemma element_marked g cs x p uri e attrs lbs u t l ps : proper g -> xml_parse g (uo_srcml u) = Some t -> even_fields u ps ->
  xpath_eval g x [t] = Some (XNodes (Some l)) -> e <> [] -> ~ In (root_id t) l -> (forall r, within r t -> In (root_id r) l -> is_kind Attr r = false) ->
  cs = AppendElement x p uri e :: attrs -> (attrs = [] /\ lbs = [] \/ exists ap au an av, attrs = [AppendAttribute x ap au an av] /\ an <> [] /\ lbs = [Label Attr an None av]) ->
  exists t' r v, apply_transforms g (truns cs []) u true = Ok (Answer ST_OK (Some r)) /\ t_type r = RESULT_UNITS /\ t_units r = [v] /\ uo_srcml v = shown g t' /\
    wrapped (ids t) (Label Elem e (Some (Some p, uri)) []) lbs l t t' /\ text_content t' = text_content t.
Proof.
  intros Pg Et Ev Ex Ne Nr Na -> At.
  assert (L : exists y, truns (AppendElement x p uri e :: attrs) [] = [Item (TXPath y) []] /\ x_xpath y = x /\ x_element y = e /\ x_element_ns y = Some (Some p, uri) /\ attr_labels y = lbs).
  { destruct At as [(-> & ->)|(ap & au & an & av & -> & Nn & ->)].
    - eexists. split; [reflexivity|]. repeat split.
    - eexists. split; [cbn [truns fold_left tstep snd app]; unfold append_attribute; cbn [rev app xpath_element x_xpath x_attr_prefix x_attr_uri x_attr_name x_attr_value]; rewrite beqb_same; reflexivity|].
      split; [reflexivity|]. split; [reflexivity|]. split; [reflexivity|]. unfold attr_labels. cbn. destruct an; [contradiction|reflexivity]. }
  destruct L as (y & -> & Yx & Ye & Yn & Ya).
  assert (Fi : fits g (Item (TXPath y) []) t true).
  { cbn. rewrite Yx, Ye. exists l. split; [exact Ex|]. destruct e; [contradiction|]. split; [exact Nr|exact Na]. }
  destruct (transformed g [Item (TXPath y) []] u t ps Pg ltac:(discriminate) Et) as (us & r & C & _ & A & Ty & M & _).
  { cbn [usable]. split; [intros q [<-|[]]; exact Fi|]. split; [exact Logic.I|]. intros; exact Logic.I. }
  { exact Ev. }
  inversion C as [|? ? ? rss ? F C']; subst. inversion C'; subst. inversion F as [|? ? ? ? Ap Fn]; subst. inversion Fn; subst. cbn in M. rewrite app_nil_r in M.
  inversion Ap as [z ? ? E1 E2 | z k t' E1 E2 E3 W | z ? ? E1 E2 E4 | ? ? ? E1 | ? E1]; subst; try discriminate E1; cbn in E1; injection E1 as <-.
  1, 3: contradiction.
  rewrite Ex in E3. injection E3 as <-. exists t', r. destruct (t_units r) as [|v [|? ?]] eqn:Eu; try discriminate M. exists v. split; [exact A|]. split; [exact Ty|].
  split; [reflexivity|]. cbn in M. injection M as M. split; [exact M|]. unfold mark_label in W. rewrite Yn in W. split; [exact W|].
  apply (wrapped_text _ _ _ _ _ _) in W; [exact W|discriminate|]. unfold attr_labels. destruct (empty _); [constructor|]. repeat constructor.
Qed.
Lemma attribute_marked g x p uri n val u t l ps : proper g -> xml_parse g (uo_srcml u) = Some t -> even_fields u ps ->
  xpath_eval g x [t] = Some (XNodes (Some l)) -> n <> [] -> (forall r a, within r t -> In (root_id r) l -> In a (children r) -> is_kind Attr a = true -> n_name (root_label a) <> n) ->
  exists t' r v, apply_transforms g (truns [AppendAttribute x p uri n val] []) u true = Ok (Answer ST_OK (Some r)) /\ t_type r = RESULT_UNITS /\ t_units r = [v] /\ uo_srcml v = shown g t' /\
    attributed (ids t) (Label Attr n (Some (Some p, uri)) val) l t t' /\ text_content t' = text_content t.
Proof.
  intros Pg Et Ev Ex Ne Nr. cbn [truns fold_left tstep snd append_attribute rev app]. set (y := xpath_attribute x p uri n val).
  assert (Fi : fits g (Item (TXPath y) []) t true).
  { cbn. exists l. split; [exact Ex|]. destruct n; [contradiction|]. exact Nr. }
  destruct (transformed g [Item (TXPath y) []] u t ps Pg ltac:(discriminate) Et) as (us & r & C & _ & A & Ty & M & _).
  { cbn [usable]. split; [intros q [<-|[]]; exact Fi|]. split; [exact Logic.I|]. intros; exact Logic.I. }
  { exact Ev. }
  inversion C as [|? ? ? rss ? F C']; subst. inversion C'; subst. inversion F as [|? ? ? ? Ap Fn]; subst. inversion Fn; subst. cbn in M. rewrite app_nil_r in M.
  inversion Ap as [z ? ? E1 E2 E2' | z k t' E1 E2 | z k t' E1 E2 E4 E3 W | ? ? ? E1 | ? E1]; subst; try discriminate E1; cbn in E1; injection E1 as <-.
  { cbn in E2'. contradiction. }
  { destruct E2. reflexivity. }
  cbn in E3. rewrite Ex in E3. injection E3 as <-. exists t', r. destruct (t_units r) as [|v [|? ?]] eqn:Eu; try discriminate M. exists v. split; [exact A|]. split; [exact Ty|].
  split; [reflexivity|]. cbn in M. injection M as M. split; [exact M|]. split; [exact W|]. apply attributed_text in W; [exact W|discriminate].
Qed.
