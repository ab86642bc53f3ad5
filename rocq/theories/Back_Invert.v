(** What is reported of the parts of a written document (C59). *)
From Verif Require Import Base Text_Model Text_Spec Api_Model Writer_Model Writer_Spec Archive_Model Archive_Spec Root_Model Root_Spec Root_Proofs Source_Model Source_Spec Source_Proofs Handoff_Model Handoff_Spec Sax_Model Sax_Spec Back_Spec Back_Reads.
Local Open Scope N_scope.

Lemma xml_text_no60 : forall r t, xml_text r t -> ~ In 60 r.
Proof.
  induction 1 as [|c e d A B C H IH|e d H IH|e d H IH|e d H IH]; [intros []|intros [E|E]; [symmetry in E; congruence|exact (IH E)]|..];
  intros I; (apply in_app_or in I as [I|I]; [vm_compute in I; repeat (destruct I as [I|I]; [discriminate I|]); exact I|exact (IH I)]).
Qed.
Lemma pieces_no60 : forall r es, pieces r es -> ~ In 60 r.
Proof. induction 1 as [|plain raw text r es N X C P H IH]; [intros []|]. intros I. apply in_app_or in I as [I|I]; [exact (xml_text_no60 _ _ X I)|exact (IH I)]. Qed.
Lemma pieces_hd : forall r es, pieces r es -> r <> [] -> hd 0 r <> 60.
Proof. intros [|c r] es P N; [contradiction|]. intros E. cbn in E. subst c. apply (pieces_no60 _ _ P). left. reflexivity. Qed.
Lemma split60 : forall (r r' s s' : bytes), ~ In 60 r -> ~ In 60 r' -> hd 0 s = 60 -> hd 0 s' = 60 -> r ++ s = r' ++ s' -> r = r' /\ s = s'.
Proof.
  induction r as [|c r IH]; intros [|c' r'] s s' N N' H H' E.
  - split; [reflexivity|exact E].
  - exfalso. cbn [app] in E. subst s. cbn in H. subst c'. apply N'. left. reflexivity.
  - exfalso. cbn [app] in E. subst s'. cbn in H'. subst c. apply N. left. reflexivity.
  - cbn [app] in E. injection E as <- E. destruct (IH r' s s') as (<- & <-); try assumption; [intros I; apply N; right; exact I|intros I; apply N'; right; exact I|]. split; reflexivity.
Qed.
(** blanks between tags *)
Lemma blank_reported : forall n st s evs, hd 0 s = 60 -> reports (n :: st) ([10; 10] ++ s) evs -> exists l, evs = XText false [10; 10] [10; 10] :: l /\ reports (n :: st) s l.
Proof.
  intros n st s evs H R. remember (n :: st) as st0 eqn:E1. remember ([10; 10] ++ s) as s0 eqn:E2.
  destruct R as [|n' st' r es s' l (NE & P & B) H60 R|n' st' t q al s' l T TE R|n' st' t q al s' l T TE R|n' p local st' s' l NN R]; [discriminate E1|..].
  - destruct (split60 r [10; 10] s' s (pieces_no60 _ _ P)) as (-> & ->); [vm_compute; intuition discriminate|exact H60|exact H|exact E2|].
    rewrite B; [|repeat constructor; right; reflexivity|vm_compute; lia]. injection E1 as -> ->. exists l. split; [reflexivity|exact R].
  - exfalso. destruct (tag_raw _ _ _ T) as (x & E). rewrite E in E2. discriminate E2.
  - exfalso. destruct (tag_raw _ _ _ T) as (x & E). rewrite E in E2. discriminate E2.
  - discriminate E2.
Qed.

(** a start tag, an empty element, an end tag *)
Lemma tag_reported : forall n st t q al p local x evs, xml_tag t q al -> ns_name q p local -> closing x -> reports (n :: st) (t ++ x) evs ->
  exists g, is_tag g q al /\ t_raw g = t /\ t_name g = local /\ t_prefix g = p /\
    ((exists s l, x = 62 :: s /\ t_empty g = false /\ evs = XStart g :: l /\ reports (q :: n :: st) s l) \/
     (exists s l, x = 47 :: 62 :: s /\ t_empty g = true /\ evs = XStart g :: XEnd local (txt "/>") :: l /\ reports (n :: st) s l)).
Proof.
  intros n st t q al p local x evs XT NN CL R. remember (n :: st) as st0 eqn:E1. remember (t ++ x) as s0 eqn:E2.
  destruct R as [|n' st' r es s' l (NE & P & B) H60 R|n' st' g q' al' s' l T TE R|n' st' g q' al' s' l T TE R|n' p' local' st' s' l NN' R]; [discriminate E1|..].
  - exfalso. destruct (tag_starts _ _ _ x XT) as (c & y & E & _). rewrite E in E2. apply (pieces_hd _ _ P NE). destruct r as [|d r]; [contradiction|]. injection E2 as -> _. reflexivity.
  - injection E1 as -> ->. pose proof T as (XT' & PS & NT & NS & AT). destruct (tag_ends _ _ _ _ _ _ _ _ XT' XT (close1 _) CL E2) as (E & <- & <- & EX).
    destruct (ns_name_unique _ _ _ _ _ NT NN) as (<- & <-). exists g. split; [exact T|]. split; [exact E|]. split; [reflexivity|]. split; [reflexivity|]. left. exists s', l. subst x. auto.
  - injection E1 as -> ->. pose proof T as (XT' & PS & NT & NS & AT). destruct (tag_ends _ _ _ _ _ _ _ _ XT' XT (close2 _) CL E2) as (E & <- & <- & EX).
    destruct (ns_name_unique _ _ _ _ _ NT NN) as (<- & <-). exists g. split; [exact T|]. split; [exact E|]. split; [reflexivity|]. split; [reflexivity|]. right. exists s', l. subst x. auto.
  - exfalso. destruct (tag_starts _ _ _ x XT) as (c & y & E & NE). rewrite E in E2. injection E2 as E2 _. symmetry in E2. contradiction.
Qed.
Lemma end_reported : forall n st s evs, reports (n :: st) (txt "</" ++ n ++ [62] ++ s) evs ->
  exists p local l, ns_name n p local /\ evs = XEnd local (txt "</" ++ n ++ [62]) :: l /\ reports st s l.
Proof.
  intros n st s evs R. remember (n :: st) as st0 eqn:E1. remember (txt "</" ++ n ++ [62] ++ s) as s0 eqn:E2.
  destruct R as [|n' st' r es s' l (NE & P & B) H60 R|n' st' g q' al' s' l T TE R|n' st' g q' al' s' l T TE R|n' p' local' st' s' l NN' R]; [discriminate E1|..].
  - exfalso. apply (pieces_hd _ _ P NE). destruct r as [|d r]; [contradiction|]. injection E2 as -> _. reflexivity.
  - exfalso. destruct T as (XT & _). destruct (tag_starts _ _ _ ([62] ++ s') XT) as (c & y & E & NE). rewrite E in E2. injection E2 as E2 _. contradiction.
  - exfalso. destruct T as (XT & _). destruct (tag_starts _ _ _ (txt "/>" ++ s') XT) as (c & y & E & NE). rewrite E in E2. injection E2 as E2 _. contradiction.
  - injection E1 as -> ->. apply app_inv_head, app_inv_head, app_inv_head in E2. subst s'. exists p', local', l. split; [exact NN'|]. split; [reflexivity|exact R].
Qed.
Lemma same_length_split : forall (a b c d : bytes), a ++ b = c ++ d -> (exists z, a ++ z = c /\ b = z ++ d) \/ (exists z, c ++ z = a /\ d = z ++ b).
Proof.
  induction a as [|x a IH]; intros b [|y c] d E.
  - left. exists []. auto.
  - left. exists (y :: c). auto.
  - right. exists (x :: a). auto.
  - cbn [app] in E. injection E as <- E. destruct (IH b c d E) as [(z & <- & ->)|(z & <- & ->)]; [left|right]; exists z; auto.
Qed.
(** an element with its content [body], known to read as [b] *)
Lemma element_reported : forall n st t q al p local (body : bytes) b sc rest evs, xml_tag t q al -> ns_name q p local ->
  (forall s l, Source_Spec.reads [(q, sc)] s l -> Source_Spec.reads [(q, sc)] (body ++ s) (b ++ l)) ->
  reports (n :: st) (unit_xml t q (nonempty body) ++ rest) evs ->
  exists g c raw l, is_tag g q al /\ t_raw g = t /\ t_name g = local /\ t_prefix g = p /\ evs = element_events (Element g c raw) ++ l /\ reports (n :: st) rest l /\
    text_of c = body /\ balanced c /\ Forall sane c /\ same c b /\ end_ok g c raw.
Proof.
  intros n st t q al p local body b sc rest evs XT NN RB R.
  assert (QB : Forall name_byte q) by (destruct XT as (x & _ & (_ & Q) & _); exact Q).
  assert (FB : Forall (fun e : bytes * scope => Forall name_byte (fst e)) [(q, sc)]) by (constructor; [exact QB|constructor]).
  assert (R0 : Source_Spec.reads [(q, sc)] (txt "</" ++ q ++ [62] ++ []) [Source_Model.XEnd]) by (apply rd_end, rd_done).
  destruct body as [|c0 body0] eqn:EB.
  - cbn [nonempty unit_xml] in R. rewrite <- app_assoc in R. destruct (tag_reported n st t q al p local _ evs XT NN (close2 rest) R) as (g & IT & TR & TN & TP & [(s & l & E & _)|(s & l & E & TE & EV & RR)]); [discriminate E|].
    injection E as <-. exists g, [], (txt "/>"), l. split; [exact IT|]. split; [exact TR|]. split; [exact TN|]. split; [exact TP|].
    split; [rewrite EV; unfold element_events; cbn [e_tag e_content e_end app]; rewrite TN; reflexivity|]. split; [exact RR|]. split; [reflexivity|]. split; [constructor|]. split; [constructor|].
    split; [|unfold end_ok; rewrite TE; split; reflexivity]. pose proof (reads_det _ _ _ R0 FB _ (RB _ _ R0)) as Y.
    destruct b as [|e b]; [constructor|]. exfalso. apply (f_equal (@length _)) in Y. cbn in Y. rewrite app_length in Y. cbn in Y. lia.
  - rewrite <- EB in *. assert (NB : nonempty body = Some body) by (rewrite EB; reflexivity). rewrite NB in R. cbn [unit_xml] in R. clear EB NB.
    change (txt ">") with [62] in R. rewrite <- !app_assoc in R.
    destruct (tag_reported n st t q al p local _ evs XT NN (close1 _) R) as (g & IT & TR & TN & TP & [(s & l & E & TE & EV & RR)|(s & l & E & _)]); [|discriminate E].
    injection E as <-. destruct (reports_contents _ _ _ RR) as (c & p' & local' & s1 & s2 & e2 & EL & NN' & ES & R2 & _ & FC).
    destruct (ns_name_unique _ _ _ _ _ NN NN') as (<- & <-). destruct (FC q) as (TC & BC & SC & MC). destruct (MC sc []) as (lc & SM & RC).
    pose proof (RC _ _ R0) as RA. pose proof (RB _ _ R0) as RA'.
    assert (K : s1 = body /\ s2 = rest /\ lc = b).
    { rewrite app_nil_r in *. assert (E3 : (s1 ++ txt "</" ++ q ++ [62]) ++ s2 = (body ++ txt "</" ++ q ++ [62]) ++ rest) by (rewrite <- !app_assoc; symmetry; exact ES).
      destruct (same_length_split _ _ _ _ E3) as [(z & Z & Y)|(z & Z & Y)].
      - rewrite <- Z in RA'. destruct (reads_ends _ _ _ RA FB z _ RA') as (-> & L). rewrite app_nil_r in Z. apply app_inv_tail in Z. apply app_inv_tail in L. subst. auto.
      - rewrite <- Z in RA. destruct (reads_ends _ _ _ RA' FB z _ RA) as (-> & L). rewrite app_nil_r in Z. apply app_inv_tail in Z. apply app_inv_tail in L. subst. auto. }
    destruct K as (-> & -> & ->). exists g, c, (txt "</" ++ q ++ [62]), e2. split; [exact IT|]. split; [exact TR|]. split; [exact TN|]. split; [exact TP|].
    split; [rewrite EV, EL; unfold element_events; cbn [e_tag e_content e_end app]; rewrite <- app_assoc, TN; reflexivity|]. split; [exact R2|]. split; [exact TC|]. split; [exact BC|]. split; [exact SC|]. split; [exact SM|].
    unfold end_ok. rewrite TE. exact Logic.I.
Qed.
