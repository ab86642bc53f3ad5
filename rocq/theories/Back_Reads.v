(** Reports of a text, and its reading as XML (C59). *)
From Verif Require Import Base Text_Model Text_Spec Api_Model Writer_Model Writer_Spec Archive_Model Archive_Spec Root_Model Root_Spec Root_Proofs Source_Model Source_Spec Source_Proofs Handoff_Model Handoff_Spec Sax_Model Sax_Spec Back_Spec.
Local Open Scope N_scope.

(** the text determines where the open elements end *)
Lemma reads_ends : forall st s l, Source_Spec.reads st s l -> Forall (fun e => Forall name_byte (fst e)) st -> forall z l', Source_Spec.reads st (s ++ z) l' -> z = [] /\ l = l'.
Proof.
  assert (TN : forall t n al, xml_tag t n al -> Forall name_byte n) by (intros t n al (s & _ & (_ & Q) & _); exact Q).
  induction 1 as [|[m sc] st c s l A B C D IH|[m sc] st c r s l A B IH|m sc st t n p local al s l A B C D IH|m sc st t n p local al s l A B C D IH|m sc st s l A IH]; intros F z l2 H2;
  destruct (reads_starts _ _ _ H2) as [(E1 & E2 & E3)|(m2 & sc2 & st2 & E1 & K)]; try discriminate E1; [split; [exact E2|subst; reflexivity]|..];
  injection E1 as <- <- <-; destruct K as [(c2 & s2 & k2 & E & X & Y & -> & R)|[(c2 & r2 & s2 & k2 & E & I2 & -> & R)|[(t2 & n2 & p2 & o2 & al2 & x2 & k2 & E & CL & T2 & NN & K)|(s2 & k2 & E & -> & R)]]];
  repeat rewrite <- app_assoc in E.
  - injection E as <- <-. destruct (IH F z _ R) as (Z & L). split; [exact Z|]. f_equal. exact L.
  - exfalso. destruct (ref_starts _ _ I2) as (b & ->). injection E as E _. contradiction.
  - exfalso. destruct (tag_starts _ _ _ x2 T2) as (c2 & y & Q & _). rewrite Q in E. injection E as E _. contradiction.
  - exfalso. injection E as E _. contradiction.
  - exfalso. destruct (ref_starts _ _ A) as (b & ->). injection E as E _. symmetry in E. contradiction.
  - destruct (ref_same _ _ _ _ _ _ A I2 E) as (<- & <-). destruct (IH F z _ R) as (Z & L). split; [exact Z|]. f_equal. exact L.
  - exfalso. destruct (tag_starts _ _ _ x2 T2) as (c2 & y & Q & _). rewrite Q in E. destruct (ref_starts _ _ A) as (b & ->). discriminate E.
  - exfalso. destruct (ref_starts _ _ A) as (b & ->). discriminate E.
  - exfalso. destruct (tag_starts _ _ _ ([62] ++ s ++ z) A) as (c3 & y & Q & _). rewrite Q in E. injection E as E _. symmetry in E. contradiction.
  - exfalso. destruct (tag_starts _ _ _ ([62] ++ s ++ z) A) as (c3 & y & Q & _). rewrite Q in E. destruct (ref_starts _ _ I2) as (b & ->). discriminate E.
  - destruct (tag_ends _ _ _ _ _ _ _ _ A T2 (close1 (s ++ z)) CL E) as (<- & <- & <- & EX).
    destruct (ns_name_unique _ _ _ _ _ C NN) as (<- & <-).
    destruct K as [(s3 & k3 & -> & -> & R3 & _)|(s3 & k3 & -> & -> & R3 & _)]; [|discriminate EX]. injection EX as <-.
    destruct (IH (Forall_cons _ (TN _ _ _ A : Forall name_byte (fst (_, _))) F) z _ R3) as (Z & L). split; [exact Z|]. f_equal. exact L.
  - exfalso. destruct (tag_starts _ _ _ ([62] ++ s ++ z) A) as (c3 & y & Q & NQ). rewrite Q in E. injection E as E _. contradiction.
  - exfalso. destruct (tag_starts _ _ _ (txt "/>" ++ s ++ z) A) as (c3 & y & Q & _). rewrite Q in E. injection E as E _. symmetry in E. contradiction.
  - exfalso. destruct (tag_starts _ _ _ (txt "/>" ++ s ++ z) A) as (c3 & y & Q & _). rewrite Q in E. destruct (ref_starts _ _ I2) as (b & ->). discriminate E.
  - destruct (tag_ends _ _ _ _ _ _ _ _ A T2 (close2 (s ++ z)) CL E) as (<- & <- & <- & EX).
    destruct (ns_name_unique _ _ _ _ _ C NN) as (<- & <-).
    destruct K as [(s3 & k3 & -> & -> & R3 & _)|(s3 & k3 & -> & -> & R3 & _)]; [discriminate EX|]. injection EX as <-.
    destruct (IH F z _ R3) as (Z & L). split; [exact Z|]. do 2 f_equal. exact L.
  - exfalso. destruct (tag_starts _ _ _ (txt "/>" ++ s ++ z) A) as (c3 & y & Q & NQ). rewrite Q in E. injection E as E _. contradiction.
  - exfalso. injection E as E _. symmetry in E. contradiction.
  - exfalso. destruct (ref_starts _ _ I2) as (b & ->). discriminate E.
  - exfalso. destruct (tag_starts _ _ _ x2 T2) as (c3 & y & Q & NQ). rewrite Q in E. injection E as E _. symmetry in E. contradiction.
  - injection E as E. apply app_inv_head in E. injection E as <-. destruct (IH (Forall_inv_tail F) z _ R) as (Z & L). split; [exact Z|]. f_equal. exact L.
Qed.

(** the events of XML behind the reports *)
Inductive same : list xev -> list xml_event -> Prop :=
| sm_nil : same [] []
| sm_text plain raw text es l : same es l -> same (XText plain raw text :: es) (map (fun c => XChars [c]) text ++ l)
| sm_start t u es l : same es l -> same (XStart t :: es) (Source_Model.XStart (t_name t) u (t_attrs t) :: l)
| sm_end n raw es l : same es l -> same (XEnd n raw :: es) (Source_Model.XEnd :: l).
Lemma same_app : forall a x b y, same a x -> same b y -> same (a ++ b) (x ++ y).
Proof. intros a x b y H. induction H; intros B; cbn [app]; [exact B|rewrite <- app_assoc|..]; constructor; auto. Qed.
(** what every event of a report is *)
Definition sane (e : xev) : Prop :=
  match e with
  | XStart t => exists r, t_raw t = 60 :: r
  | XEnd _ _ => True
  | XText plain raw text => (exists c r, raw = c :: r /\ c <> 62) /\ (plain = true -> raw = text)
  | _ => False
  end.
Lemma text_first : forall c r t, xml_text (c :: r) t -> c <> 62.
Proof. intros c r t H. inversion H; subst; intros E; subst; try contradiction; discriminate. Qed.
Lemma xml_text_reads : forall raw text, xml_text raw text -> Forall (fun c => 32 <= c \/ c = 9 \/ c = 10) raw -> forall e st s l, Source_Spec.reads (e :: st) s l ->
  Source_Spec.reads (e :: st) (raw ++ s) (map (fun c => XChars [c]) text ++ l).
Proof.
  induction 1 as [|c e d A B C H IH|e d H IH|e d H IH|e d H IH]; intros F [m sc] st s l R; cbn [map app]; [exact R|..].
  - apply rd_char; [exact (Forall_inv F)|exact A|exact C|apply IH; [exact (Forall_inv_tail F)|exact R]].
  - rewrite <- app_assoc. apply (rd_ref _ _ 60 (txt "&lt;")); [vm_compute; tauto|apply IH; [exact (proj2 (proj1 (Forall_app _ _ _) F))|exact R]].
  - rewrite <- app_assoc. apply (rd_ref _ _ 62 (txt "&gt;")); [vm_compute; tauto|apply IH; [exact (proj2 (proj1 (Forall_app _ _ _) F))|exact R]].
  - rewrite <- app_assoc. apply (rd_ref _ _ 38 (txt "&amp;")); [vm_compute; tauto|apply IH; [exact (proj2 (proj1 (Forall_app _ _ _) F))|exact R]].
Qed.
Lemma pieces_facts : forall r es, pieces r es -> text_of es = r /\ Forall sane es /\ (forall k, balanced k -> balanced (es ++ k)) /\
  exists l, same es l /\ forall e st s k, Source_Spec.reads (e :: st) s k -> Source_Spec.reads (e :: st) (r ++ s) (l ++ k).
Proof.
  induction 1 as [|plain raw text r es N X C P H (T & S & B & l & M & R)].
  - split; [reflexivity|]. split; [constructor|]. split; [auto|]. exists []. split; [constructor|auto].
  - split; [|split; [|split]].
    + change (text_of (XText plain raw text :: es)) with (raw ++ text_of es). rewrite T. reflexivity.
    + constructor; [|exact S]. split; [|exact P]. destruct raw as [|c q]; [contradiction|]. exists c, q. split; [reflexivity|exact (text_first _ _ _ X)].
    + intros k K. cbn [app]. apply bal_leaf; [exact Logic.I|apply B, K].
    + eexists. split; [apply sm_text, M|]. intros e st s k K. rewrite <- !app_assoc. apply xml_text_reads; [exact X|exact C|apply R, K].
Qed.
(** the content of each open element and what follows its end *)
Definition content_facts (n : bytes) (c : list xev) (s1 : bytes) : Prop :=
  text_of c = s1 /\ balanced c /\ Forall sane c /\
  forall sc st2, exists lc, same c lc /\ forall s' k, Source_Spec.reads ((n, sc) :: st2) s' k -> Source_Spec.reads ((n, sc) :: st2) (s1 ++ s') (lc ++ k).
Fixpoint contents (st : list bytes) (s : bytes) (evs : list xev) : Prop :=
  match st with
  | [] => s = [] /\ evs = []
  | n :: st' => exists c p local s1 s2 e2, evs = c ++ XEnd local (txt "</" ++ n ++ [62]) :: e2 /\ ns_name n p local /\ s = s1 ++ txt "</" ++ n ++ [62] ++ s2 /\
      reports st' s2 e2 /\ contents st' s2 e2 /\ forall m, content_facts m c s1
  end.
Lemma facts_app : forall n a b s t, content_facts n a s -> content_facts n b t -> balanced (a ++ b) -> content_facts n (a ++ b) (s ++ t).
Proof.
  intros n a b s t (T & _ & S & M) (T' & _ & S' & M') B. split; [unfold text_of in *; rewrite map_app, concat_app, T, T'; reflexivity|]. split; [exact B|]. split; [apply Forall_app; auto|].
  intros sc st2. destruct (M sc st2) as (l & ML & R), (M' sc st2) as (l' & ML' & R'). exists (l ++ l'). split; [apply same_app; assumption|]. intros s' k K. rewrite <- !app_assoc. apply R, R', K.
Qed.
Lemma tag_raw : forall t q al, is_tag t q al -> exists r, t_raw t = 60 :: r.
Proof. intros t q al ((x & -> & _) & _). eexists. reflexivity. Qed.
Lemma element_facts : forall m t q al p local c s1, is_tag t q al -> t_empty t = false -> ns_name q p local -> (forall m, content_facts m c s1) ->
  content_facts m (element_events (Element t c (txt "</" ++ q ++ [62]))) (t_raw t ++ [62] ++ s1 ++ txt "</" ++ q ++ [62]).
Proof.
  intros m t q al p local c s1 IT TE NN FC. pose proof (tag_raw _ _ _ IT) as TR. destruct IT as (XT & PS & NT & NS & AT). destruct (FC q) as (TC & BC & SC & MC).
  split; [|split; [|split]].
  - unfold element_events, text_of in *. cbn [e_tag e_content e_end map concat xtext]. rewrite map_app, concat_app, TC, TE. cbn [map concat xtext]. rewrite app_nil_r, <- !app_assoc. reflexivity.
  - rewrite <- (app_nil_r (element_events _)). apply bal_element; [exact BC| |constructor]. unfold end_ok. cbn [e_tag]. rewrite TE. exact Logic.I.
  - unfold element_events. cbn [e_tag e_content e_end]. constructor; [exact TR|]. apply Forall_app. split; [exact SC|constructor; [exact Logic.I|constructor]].
  - intros sc st2. destruct (MC (sax_namespaces al ++ sc) ((m, sc) :: st2)) as (lc & M & R). eexists. split.
    + unfold element_events. cbn [e_tag e_content e_end]. apply sm_start, same_app; [exact M|]. apply sm_end, sm_nil.
    + intros s' k K. rewrite <- !app_assoc. cbn [app]. rewrite AT. rewrite <- app_assoc. cbn [app].
      apply (rd_start m sc st2 _ _ _ _ _ _ _ XT PS NT). apply (R (txt "</" ++ q ++ [62] ++ s')). apply rd_end. exact K.
Qed.
Lemma empty_facts : forall m t q al, is_tag t q al -> t_empty t = true ->
  content_facts m (element_events (Element t [] (txt "/>"))) (t_raw t ++ txt "/>").
Proof.
  intros m t q al IT TE. pose proof (tag_raw _ _ _ IT) as TR. destruct IT as (XT & PS & NT & NS & AT).
  split; [|split; [|split]].
  - unfold element_events, text_of in *. cbn [e_tag e_content e_end map concat xtext app]. rewrite TE. rewrite !app_nil_r. reflexivity.
  - rewrite <- (app_nil_r (element_events _)). apply bal_element; [constructor| |constructor]. unfold end_ok. cbn [e_tag]. rewrite TE. split; reflexivity.
  - unfold element_events. cbn [e_tag e_content e_end]. constructor; [exact TR|]. constructor; [exact Logic.I|constructor].
  - intros sc st2. eexists. split.
    + unfold element_events. cbn [e_tag e_content e_end app]. apply sm_start, sm_end, sm_nil.
    + intros s' k K. rewrite <- !app_assoc. cbn [app]. rewrite AT. apply (rd_empty m sc st2 _ _ _ _ _ _ _ XT PS NT). exact K.
Qed.
Lemma reports_contents : forall st s evs, reports st s evs -> contents st s evs.
Proof.
  induction 1 as [|n st r es s l (NE & P & _) H60 H IH|n st t q al s l T TE H IH|n st t q al s l T TE H IH|n p local st s l NN H IH].
  - split; reflexivity.
  - destruct IH as (c & p & local & s1 & s2 & e2 & -> & NN & -> & R & CR & FC). destruct (pieces_facts _ _ P) as (TE & SE & BE & l1 & ML & RL).
    exists (es ++ c), p, local, (r ++ s1), s2, e2. split; [rewrite <- app_assoc; reflexivity|]. split; [exact NN|]. split; [rewrite <- app_assoc; reflexivity|]. split; [exact R|]. split; [exact CR|].
    intros m. apply facts_app; [|apply FC|apply BE, FC; exact []]. split; [exact TE|]. split; [rewrite <- (app_nil_r es); apply BE; constructor|]. split; [exact SE|].
    intros sc st2. exists l1. split; [exact ML|]. intros s' k K. apply RL, K.
  - destruct IH as (c & p & local & s1 & s2 & e2 & -> & NN & -> & R & (c' & p' & local' & s1' & s2' & e2' & -> & NN' & -> & R' & CR' & FC') & FC).
    assert (local = t_name t) as -> by (destruct T as (_ & _ & NT & _); exact (proj2 (ns_name_unique _ _ _ _ _ NN NT))).
    exists (element_events (Element t c (txt "</" ++ q ++ [62])) ++ c'), p', local', ((t_raw t ++ [62] ++ s1 ++ txt "</" ++ q ++ [62]) ++ s1'), s2', e2'.
    split; [unfold element_events; cbn [e_tag e_content e_end app]; rewrite <- !app_assoc; reflexivity|]. split; [exact NN'|]. split; [rewrite <- !app_assoc; reflexivity|]. split; [exact R'|]. split; [exact CR'|].
    intros m. apply facts_app; [exact (element_facts m t q al p (t_name t) c s1 T TE NN FC)|apply FC'|]. apply bal_element; [apply (FC [])| |apply (FC' [])]. unfold end_ok. cbn [e_tag]. rewrite TE. exact Logic.I.
  - destruct IH as (c' & p' & local' & s1' & s2' & e2' & -> & NN' & -> & R' & CR' & FC').
    exists (element_events (Element t [] (txt "/>")) ++ c'), p', local', ((t_raw t ++ txt "/>") ++ s1'), s2', e2'.
    split; [reflexivity|]. split; [exact NN'|]. split; [rewrite <- !app_assoc; reflexivity|]. split; [exact R'|]. split; [exact CR'|].
    intros m. apply facts_app; [exact (empty_facts m t q al T TE)|apply FC'|]. apply bal_element; [constructor| |apply (FC' [])]. unfold end_ok. cbn [e_tag]. rewrite TE. split; reflexivity.
  - exists [], p, local, [], s, l. split; [reflexivity|]. split; [exact NN|]. split; [reflexivity|]. split; [exact H|]. split; [exact IH|]. intros m.
    split; [reflexivity|]. split; [constructor|]. split; [constructor|]. intros sc st2. exists []. split; [constructor|]. intros s' k K. exact K.
Qed.
