From Verif Require Import Base Reader_Model Reader_Spec.
Local Open Scope N_scope.

Definition eol_from (b : bool) (l : bytes) : bytes :=
  match b, l with true, 10 :: t => eol_norm t | _, _ => eol_norm l end.

Lemma eol_norm_cr t : eol_norm (13 :: t) = 10 :: eol_from true t.
Proof. destruct t as [|c t]; reflexivity. Qed.

Lemma eol_norm_other c t : c <> 13 -> eol_norm (c :: t) = c :: eol_norm t.
Proof.
  intros H. cbn [eol_norm].
  destruct c as [|p]; [reflexivity|].
  repeat (match goal with |- match ?q with _ => _ end = _ => destruct q end; try reflexivity; try (exfalso; apply H; reflexivity)).
Qed.

Lemma eol_from_true_lf t : eol_from true (10 :: t) = eol_norm t.
Proof. reflexivity. Qed.

Lemma eol_from_true_other c t : c <> 10 -> eol_from true (c :: t) = eol_norm (c :: t).
Proof.
  intros H. unfold eol_from.
  destruct c as [|p]; [reflexivity|].
  repeat (match goal with |- match ?q with _ => _ end = _ => destruct q end; try reflexivity; try (exfalso; apply H; reflexivity)).
Qed.

Lemma eol_from_false t : eol_from false t = eol_norm t.
Proof. reflexivity. Qed.

Section P.
Variable cv : converter.
Notation rdr := (reader cv).

(** Each chunk converts completely, to something, and fits in the output buffer. *)
Inductive Converts (csz : nat) : cv_state cv -> list bytes -> list bytes -> Prop :=
| Conv_nil c : Converts csz c [] []
| Conv_cons c b bs o os :
    ic_ok (cv_conv cv c b) = true ->
    ic_left (cv_conv cv c b) = 0%nat ->
    ic_out (cv_conv cv c b) = o -> o <> [] -> (length o <= csz)%nat ->
    Converts csz (ic_state (cv_conv cv c b)) bs os ->
    Converts csz c (b :: bs) (o :: os).

Lemma Converts_cons_inv csz c b bs outs : Converts csz c (b :: bs) outs ->
  exists os, outs = ic_out (cv_conv cv c b) :: os /\ ic_ok (cv_conv cv c b) = true /\
    ic_left (cv_conv cv c b) = 0%nat /\ ic_out (cv_conv cv c b) <> [] /\
    (length (ic_out (cv_conv cv c b)) <= csz)%nat /\ Converts csz (ic_state (cv_conv cv c b)) bs os.
Proof. intros H. inversion H; subst. eexists. repeat split; eassumption. Qed.

Definition buf (r : rdr) : bytes := if trivial cv r then raw cv r else cooked cv r.

(** how the callback ends: end of file or an error *)
Definition ends (tail : list rd) : Prop :=
  match tail with [] => True | ReadErr :: _ => True | Data [] :: _ => True | _ => False end.

Definition chunk_ok (b : bytes) : Prop := b <> [] /\ (length b <= SRCBUFSIZE)%nat.

(** The reader will still deliver exactly the text [t] (before line-ending conversion). *)
Record Rdy (hn : bool) (hash0 : bytes) (r : rdr) (t : bytes) : Prop := {
  rdy_hn : hashneeded cv r = hn;
  rdy_first : firstRead cv r = false;
  rdy_left : inbytesleft cv r = 0%nat;
  rdy_conv : exists c, conv cv r = Some c;
  rdy_insize : insize cv r = length (buf r);
  rdy_pos : (pos cv r <= insize cv r)%nat;
  rdy_chunks : exists chunks tail,
      src cv r = map Data chunks ++ tail /\ ends tail /\ Forall chunk_ok chunks /\
      (hn = true -> hashed cv r ++ concat chunks = hash0) /\
      exists outs, t = skipn (pos cv r) (buf r) ++ concat outs /\
        (trivial cv r = true -> outs = chunks) /\
        (trivial cv r = false -> forall c, conv cv r = Some c -> Converts (cooked_size cv r) c chunks outs) }.

Lemma ends_read (r : rdr) tail :
  insize cv r = 0%nat \/ (insize cv r <= pos cv r)%nat -> src cv r = tail -> ends tail ->
  exists s, readChars cv r = Ok (mkReader cv (pos cv r) (insize cv r) (lastcr cv r) (raw cv r) (inbytesleft cv r) (cooked cv r)
          (cooked_size cv r) (encoding cv r) (trivial cv r) (firstRead cv r) (hashneeded cv r) (hashed cv r)
          (loc cv r) (lastchar cv r) (conv cv r) s (asked cv r), 0%nat).
Proof.
  intros Hi Hs He. unfold readChars.
  replace (Nat.eqb (insize cv r) 0 || Nat.leb (insize cv r) (pos cv r)) with true
    by (symmetry; apply orb_true_iff; destruct Hi; [left; apply Nat.eqb_eq|right; apply Nat.leb_le]; assumption).
  rewrite Hs. destruct tail as [|[[|b bs]|] tl]; try (simpl in He; contradiction).
  - exists []. destruct r; simpl in *; subst; reflexivity.
  - eexists. reflexivity.
  - eexists. reflexivity.
Qed.

(** state after a refill *)
Definition set_insize (r : rdr) n : rdr :=
  mkReader cv (pos cv r) n (lastcr cv r) (raw cv r) (inbytesleft cv r) (cooked cv r)
          (cooked_size cv r) (encoding cv r) (trivial cv r) (firstRead cv r) (hashneeded cv r) (hashed cv r)
          (loc cv r) (lastchar cv r) (conv cv r) (src cv r) (asked cv r).

Lemma skipn_all_app {A} (l m : list A) : skipn (length l) l ++ m = m.
Proof. rewrite skipn_all. reflexivity. Qed.

Lemma refill hn h (r : rdr) t :
  Rdy hn h r t -> (insize cv r <= pos cv r)%nat -> t <> [] ->
  exists r1 n, readChars cv r = Ok (r1, n) /\ n <> 0%nat /\ Rdy hn h (set_insize r1 n) t /\
    (pos cv r1 < n)%nat /\ lastcr cv r1 = lastcr cv r /\ loc cv r1 = loc cv r /\
    lastchar cv r1 = lastchar cv r.
Proof.
  intros [Hhn Hf Hl [c Hc] Hi Hp (chunks & tail & Hsrc & He & Hck & Hh & outs & Ht & Htr & Hnt)] Hge Hne.
  assert (Heq : pos cv r = insize cv r) by lia.
  assert (Ht' : t = concat outs).
  { rewrite Ht, Heq, Hi. apply skipn_all_app. }
  destruct chunks as [|b bs].
  { exfalso. destruct (trivial cv r) eqn:Etr.
    - rewrite (Htr eq_refl) in Ht'. apply Hne. exact Ht'.
    - pose proof (Hnt eq_refl c Hc) as HC. inversion HC as [? E1 E2 E3|]. rewrite <- E3 in Ht'. apply Hne. exact Ht'. }
  apply Forall_cons_iff in Hck as [[Hbne Hblen] Hck'].
  simpl in Hsrc.
  unfold readChars.
  replace (Nat.eqb (insize cv r) 0 || Nat.leb (insize cv r) (pos cv r)) with true
    by (symmetry; apply orb_true_iff; right; apply Nat.leb_le; lia).
  rewrite Hsrc. destruct b as [|b0 b']; [congruence|]. set (b := b0 :: b') in *.
  rewrite Hl. replace (Nat.leb (length b + 0) SRCBUFSIZE) with true
    by (symmetry; apply Nat.leb_le; lia).
  cbn [firstn app].
  unfold process. cbn [firstRead]. rewrite Hf. cbn [trivial hashneeded inbytesleft raw skipn].
  destruct (trivial cv r) eqn:Etr.
  - eexists _, _. split; [reflexivity|]. cbn -[length Nat.leb].
    pose proof (Htr eq_refl) as Ho. subst outs.
    repeat split; cbn -[length]; try reflexivity; try assumption; try (simpl; lia).
    + eexists; exact Hc.
    + exists bs, tail. split; [reflexivity|]. split; [exact He|]. split; [exact Hck'|]. split.
      * intros Hn. rewrite Hhn, Hn. rewrite <- app_assoc. apply (Hh Hn).
      * exists bs. split; [|split; [reflexivity|congruence]].
        unfold buf; cbn; rewrite ?Etr; exact Ht'.
  - cbn [conv]. rewrite Hc.
    destruct (Converts_cons_inv _ _ _ _ _ (Hnt eq_refl c Hc)) as (os & Hos & H1 & H2 & H4 & H5 & H6). subst outs.
    unfold convert. cbn [raw cooked_size]. rewrite H1. 
    replace (Nat.leb _ _) with true by (symmetry; apply Nat.leb_le; exact H5).
    cbn [andb]. rewrite H2.
    set (o := ic_out (cv_conv cv c b)) in *.
    eexists _, _. split; [reflexivity|]. cbn -[length Nat.leb].
    assert (Hno : length o <> 0%nat) by (destruct o; [congruence|simpl; lia]).
    repeat split; cbn -[length]; try reflexivity; try assumption; try lia.
    + eexists; reflexivity.
    + exists bs, tail. split; [reflexivity|]. split; [exact He|]. split; [exact Hck'|]. split.
      * intros Hn. rewrite Hhn, Hn. rewrite <- app_assoc. apply (Hh Hn).
      * exists os. split; [|split; [congruence|]].
        -- unfold buf; cbn; rewrite ?Etr; exact Ht'.
        -- intros _ c' E'. injection E' as <-. exact H6.
Qed.

(** One step of the loop body of getChar. *)
Lemma getChar_with_step hn h again (r : rdr) c t :
  Rdy hn h r (c :: t) ->
  exists r2, Rdy hn h r2 t /\
    (if lastcr cv r && (c =? LF) then
       getChar_with cv again r = again r2 /\ lastcr cv r2 = false /\ loc cv r2 = loc cv r /\ lastchar cv r2 = lastchar cv r
     else
       getChar_with cv again r = Ok (r2, Char (if c =? CR then LF else c)) /\ lastcr cv r2 = (c =? CR)
       /\ loc cv r2 = ((if ((if c =? CR then LF else c) =? LF)%N then 1 else 0) + loc cv r)%nat
       /\ lastchar cv r2 = (if c =? CR then LF else c)).
Proof.
  intros HR.
  assert (Hfill : exists r1, Rdy hn h r1 (c :: t) /\ (pos cv r1 < insize cv r1)%nat /\ lastcr cv r1 = lastcr cv r
            /\ loc cv r1 = loc cv r /\ lastchar cv r1 = lastchar cv r /\
      (if Nat.eqb (insize cv r) 0 || Nat.leb (insize cv r) (pos cv r) then
      obind (readChars cv r) (fun '(r1, n) =>
        Ok (set_insize r1 n, Nat.eqb n 0))
      else Ok (r, false)) = Ok (r1, false)).
  { destruct (Nat.eqb (insize cv r) 0 || Nat.leb (insize cv r) (pos cv r)) eqn:E.
    - assert (Hge : (insize cv r <= pos cv r)%nat).
      { apply orb_true_iff in E as [E|E]; [apply Nat.eqb_eq in E; lia|apply Nat.leb_le in E; exact E]. }
      destruct (refill hn h r (c :: t) HR Hge ltac:(discriminate)) as (r1 & n & H1 & H2 & H3 & H4 & H5 & H6 & H7).
      exists (set_insize r1 n). rewrite H1. cbn -[Nat.eqb].
      repeat split; try assumption; try (apply H3); try reflexivity.
      destruct (Nat.eqb_spec n 0); [contradiction|reflexivity].
    - apply orb_false_iff in E as [_ E]. apply Nat.leb_gt in E. exists r. repeat split; try assumption; try apply HR. }
  destruct Hfill as (r1 & HR1 & Hlt & Hcr & Hlc & Hlch & Hf).
  unfold getChar_with. unfold set_insize in Hf. rewrite Hf. cbn [obind].
  destruct HR1 as [Hhn Hff Hl Hc Hi Hp (chunks & tail & Hsrc & He & Hck & Hh & outs & Ht & Htr & Hnt)].
  assert (Hnth : nth_error (buf r1) (pos cv r1) = Some c).
  { destruct (nth_error (buf r1) (pos cv r1)) as [x|] eqn:En.
    - rewrite (list_eq_nth_skip _ _ _ En) in Ht. simpl in Ht. injection Ht as -> _. reflexivity.
    - apply nth_error_None in En. lia. }
  pose proof (list_eq_nth_skip _ _ _ Hnth) as Hsk.
  rewrite Hsk in Ht. cbn [app] in Ht. injection Ht as Ht.
  unfold buf in Hnth. match goal with |- context[nth_error ?l ?p] => replace (nth_error l p) with (Some c) by (symmetry; exact Hnth) end. rewrite Hcr.
  destruct (lastcr cv r && (c =? LF)) eqn:Eb.
  - eexists. split; [|split; [reflexivity|split; [reflexivity|split; assumption]]].
    constructor; cbn -[skipn]; try assumption; try lia.
    exists chunks, tail. repeat (split; [assumption|]).
    exists outs. split; [exact Ht|]. split; assumption.
  - eexists. split; [|split; [reflexivity|split; [reflexivity|split; [|reflexivity]]]].
    + constructor; cbn -[skipn]; try assumption; try lia.
      exists chunks, tail. repeat (split; [assumption|]).
      exists outs. split; [exact Ht|]. split; assumption.
    + cbn. rewrite Hlc. match goal with |- context[if ?b then S _ else _] => destruct b end; reflexivity.
Qed.

Lemma getChar_eof hn h again (r : rdr) :
  Rdy hn h r [] ->
  exists r2, getChar_with cv again r = Ok (r2, Eof) /\ hashneeded cv r2 = hn /\
    (hn = true -> hashed cv r2 = h) /\ loc cv r2 = loc cv r /\ lastchar cv r2 = lastchar cv r.
Proof.
  intros [Hhn Hf Hl [c Hc] Hi Hp (chunks & tail & Hsrc & He & Hck & Hh & outs & Ht & Htr & Hnt)].
  assert (Hge : (insize cv r <= pos cv r)%nat).
  { rewrite Hi. symmetry in Ht. apply app_eq_nil in Ht as [Hs _].
    apply (f_equal (@length _)) in Hs. rewrite skipn_length in Hs. simpl in Hs. lia. }
  assert (Hch : chunks = []).
  { symmetry in Ht. apply app_eq_nil in Ht as [_ Ho].
    destruct (trivial cv r) eqn:Etr.
    - rewrite (Htr eq_refl) in Ho. destruct chunks as [|b bs]; [reflexivity|].
      inversion Hck as [|? ? [Hb _] _]; subst. simpl in Ho. apply app_eq_nil in Ho as [Ho _]. congruence.
    - pose proof (Hnt eq_refl c Hc) as HC. inversion HC as [|? ? ? o os H1 H2 H3 H4 H5 H6]; [reflexivity|].
      subst. simpl in Ho. apply app_eq_nil in Ho as [Ho _]. congruence. }
  subst chunks. simpl in Hsrc.
  destruct (ends_read r tail (or_intror Hge) Hsrc He) as [s Hr].
  unfold getChar_with.
  replace (Nat.eqb (insize cv r) 0 || Nat.leb (insize cv r) (pos cv r)) with true
    by (symmetry; apply orb_true_iff; right; apply Nat.leb_le; lia).
  rewrite Hr. cbn. eexists. split; [reflexivity|]. cbn. split; [exact Hhn|]. split; [|split; reflexivity].
  intros Hn. specialize (Hh Hn). simpl in Hh. rewrite app_nil_r in Hh. exact Hh.
Qed.

Lemma getChar_step hn h (r : rdr) t :
  Rdy hn h r t ->
  (exists r2 c t', getChar cv r = Ok (r2, Char c) /\ Rdy hn h r2 t' /\ (length t' < length t)%nat /\
      eol_from (lastcr cv r) t = c :: eol_from (lastcr cv r2) t' /\
      loc cv r2 = ((if (c =? LF)%N then 1 else 0) + loc cv r)%nat /\ lastchar cv r2 = c) \/
  (exists r2, getChar cv r = Ok (r2, Eof) /\ eol_from (lastcr cv r) t = [] /\
    (hn = true -> hashed cv r2 = h) /\ loc cv r2 = loc cv r /\ lastchar cv r2 = lastchar cv r).
Proof.
  intros HR. unfold getChar.
  assert (Hplain : forall again (q : rdr) c t', Rdy hn h q (c :: t') -> lastcr cv q && (c =? LF) = false ->
     exists r2 c2, getChar_with cv again q = Ok (r2, Char c2) /\ Rdy hn h r2 t' /\
       eol_norm (c :: t') = c2 :: eol_from (lastcr cv r2) t' /\
       loc cv r2 = ((if (c2 =? LF)%N then 1 else 0) + loc cv q)%nat /\ lastchar cv r2 = c2).
  { intros again q c t' HQ E. destruct (getChar_with_step hn h again q c t' HQ) as (r2 & HR2 & H).
    rewrite E in H. destruct H as (H1 & H2 & H3 & H4).
    exists r2, (if c =? CR then LF else c). split; [exact H1|]. split; [exact HR2|].
    split; [|split; assumption].
    rewrite H2. unfold CR, LF in *. destruct (N.eqb_spec c 13) as [->|Hn].
    - apply eol_norm_cr.
    - rewrite eol_norm_other by exact Hn. reflexivity. }
  destruct t as [|c t].
  - right. destruct (getChar_eof hn h (getChar_with cv (fun _ => UB)) r HR) as (r2 & H1 & H2 & H3 & H4 & H5).
    exists r2. split; [exact H1|]. split; [destruct (lastcr cv r); reflexivity|]. repeat split; assumption.
  - destruct (lastcr cv r && (c =? LF)) eqn:E.
    + destruct (getChar_with_step hn h (getChar_with cv (fun _ => UB)) r c t HR) as (r1 & HR1 & H).
      rewrite E in H. destruct H as (H1 & H2 & H3 & H4). rewrite H1.
      apply andb_true_iff in E as [E1 E2]. apply N.eqb_eq in E2. unfold LF in E2. subst c.
      rewrite E1, eol_from_true_lf.
      destruct t as [|c t].
      * right. destruct (getChar_eof hn h (fun _ => UB) r1 HR1) as (r2 & G1 & G2 & G3 & G4 & G5).
        exists r2. split; [exact G1|]. split; [reflexivity|]. rewrite G4, G5. repeat split; assumption.
      * left. destruct (Hplain (fun _ => UB) r1 c t HR1 ltac:(rewrite H2; reflexivity)) as (r2 & c2 & G1 & G2 & G3 & G4 & G5).
        exists r2, c2, t. rewrite H3 in G4. simpl. repeat split; try assumption; try apply G2. lia.
    + left. destruct (Hplain (getChar_with cv (fun _ => UB)) r c t HR E) as (r2 & c2 & G1 & G2 & G3 & G4 & G5).
      exists r2, c2, t. repeat split; try assumption; try apply G2; [simpl; lia|].
      rewrite <- G3. destruct (lastcr cv r); [|reflexivity].
      apply eol_from_true_other. intros ->. discriminate E.
Qed.

Lemma count_lf_cons c l : count_lf (c :: l) = ((if (c =? LF)%N then 1 else 0) + count_lf l)%nat.
Proof.
  unfold count_lf. simpl. destruct (N.eq_dec c 10) as [->|H]; [reflexivity|].
  destruct (N.eqb_spec c LF) as [->|_]; [contradiction H; reflexivity|reflexivity].
Qed.

Lemma read_all_rdy hn h t : forall (r : rdr) fuel,
  Rdy hn h r t -> (length t < fuel)%nat ->
  exists r2, read_all cv fuel r = Some (Ok (r2, eol_from (lastcr cv r) t)) /\
    (hn = true -> hashed cv r2 = h) /\
    loc cv r2 = (count_lf (eol_from (lastcr cv r) t) + loc cv r)%nat /\
    lastchar cv r2 = last (eol_from (lastcr cv r) t) (lastchar cv r).
Proof.
  remember (length t) as n eqn:En. revert t En.
  induction n as [n IH] using (well_founded_induction lt_wf). intros t En r fuel HR Hf.
  destruct fuel as [|fuel]; [lia|].
  destruct (getChar_step hn h r t HR) as [(r1 & c & t' & H1 & H2 & H3 & H4 & H5 & H6)|(r1 & H1 & H2 & H3 & H4 & H5)].
  - cbn [read_all]. rewrite H1.
    destruct (IH (length t') ltac:(lia) t' eq_refl r1 fuel H2 ltac:(lia)) as (r2 & G1 & G2 & G3 & G4).
    rewrite G1, H4. exists r2. split; [reflexivity|]. split; [exact G2|]. split.
    + rewrite G3, count_lf_cons, H5. lia.
    + rewrite G4, H6. destruct (eol_from (lastcr cv r1) t') as [|x l] eqn:El; [reflexivity|].
      transitivity (last (x :: l) (lastchar cv r)); [|reflexivity].
      clear. revert x. induction l as [|y l IHl]; intros x; [reflexivity|]. apply (IHl y).
  - cbn [read_all]. rewrite H1, H2. exists r1. rewrite H4, H5. repeat split; assumption.
Qed.

(** The first read, streaming routes. *)
Lemma getChar_fill (r : rdr) r1 n :
  insize cv r = 0%nat -> readChars cv r = Ok (r1, n) -> n <> 0%nat -> (pos cv r1 < n)%nat ->
  getChar cv r = getChar cv (set_insize r1 n).
Proof.
  intros Hi Hr Hn Hp. unfold getChar. unfold getChar_with at 1 3. rewrite Hi, Hr.
  unfold set_insize. cbn -[Nat.eqb Nat.leb].
  destruct (Nat.eqb_spec n 0); [contradiction|]. cbn [Nat.eqb orb obind].
  replace (Nat.leb n (pos cv r1)) with false by (symmetry; apply Nat.leb_gt; exact Hp). cbn.
  reflexivity.
Qed.

Lemma read_all_fill (r : rdr) r1 n fuel :
  insize cv r = 0%nat -> readChars cv r = Ok (r1, n) -> n <> 0%nat -> (pos cv r1 < n)%nat ->
  read_all cv fuel r = read_all cv fuel (set_insize r1 n).
Proof.
  intros Hi Hr Hn Hp. destruct fuel as [|f]; [reflexivity|]. cbn [read_all].
  rewrite (getChar_fill r r1 n Hi Hr Hn Hp). reflexivity.
Qed.

(** What the first chunk and the following ones convert to. *)
Inductive Source (csz : nat) (enc : string) (chunks : list bytes) (text : bytes) : Prop :=
| Src_trivial b bs c :
    chunks = b :: bs -> cv_open cv (choose_encoding enc b) = Some c ->
    cv_trivial cv (choose_encoding enc b) = true ->
    (bom_skip b < length b)%nat ->
    text = skipn (bom_skip b) (concat chunks) -> Source csz enc chunks text
| Src_conv b bs c outs :
    chunks = b :: bs -> cv_open cv (choose_encoding enc b) = Some c ->
    cv_trivial cv (choose_encoding enc b) = false ->
    Converts csz c chunks outs ->
    (bom_skip b < length (hd [] outs))%nat ->
    text = skipn (bom_skip b) (concat outs) -> Source csz enc chunks text.

Lemma process_first csz enc chunks text hn (r : rdr) tail :
  Source csz enc chunks text ->
  firstRead cv r = true -> encoding cv r = enc -> raw cv r = hd [] chunks ->
  src cv r = map Data (tl chunks) ++ tail -> ends tail -> Forall chunk_ok (tl chunks) ->
  inbytesleft cv r = 0%nat -> cooked_size cv r = csz -> hashneeded cv r = hn -> hashed cv r = [] ->
  lastcr cv r = false -> loc cv r = 0%nat -> lastchar cv r = 0 ->
  exists r1 n, process cv r = (r1, n) /\ n <> 0%nat /\ (pos cv r1 < n)%nat /\
     Rdy hn (concat chunks) (set_insize r1 n) text /\
     lastcr cv r1 = false /\ loc cv r1 = 0%nat /\ lastchar cv r1 = 0.
Proof.
  intros HS Hf He Hraw Hsrc Hends Hck Hl Hcs Hhn Hh Hcr Hloc Hlch.
  unfold process. rewrite Hf, He, Hraw, Hl, Hh, Hhn. cbn [app skipn].
  destruct HS as [b bs c Hb Ho Ht Hlen Htext | b bs c outs Hb Ho Ht HC Hlen Htext]; subst chunks; cbn [hd tl] in *.
  - rewrite Ho, Ht. eexists _, _. split; [reflexivity|]. cbn -[length].
    repeat split; cbn -[length]; try assumption; try lia; try reflexivity.
    + eexists; reflexivity.
    + exists bs, tail. split; [exact Hsrc|]. split; [exact Hends|]. split; [exact Hck|].
      split; [intros ->; reflexivity|]. exists bs. split; [|split; congruence].
      rewrite Htext. unfold buf. cbn -[bom_skip skipn]. rewrite ?Hraw. cbn [concat]. rewrite skipn_app.
      replace (bom_skip b - length b)%nat with 0%nat by lia. reflexivity.
  - rewrite Ho, Ht.
    destruct (Converts_cons_inv _ _ _ _ _ HC) as (os & Hos & H1 & H2 & H4 & H5 & H6). subst outs.
    unfold convert. cbn [raw cooked_size]. rewrite H1, Hcs.
    replace (Nat.leb _ _) with true by (symmetry; apply Nat.leb_le; exact H5).
    cbn [andb]. rewrite H2. cbn [hd] in Hlen.
    set (o := ic_out (cv_conv cv c b)) in *.
    eexists _, _. split; [reflexivity|]. cbn -[length].
    assert (length o <> 0%nat) by (destruct o; [congruence|simpl; lia]).
    repeat split; cbn -[length]; try assumption; try lia; try reflexivity.
    + eexists; reflexivity.
    + exists bs, tail. split; [exact Hsrc|]. split; [exact Hends|]. split; [exact Hck|].
      split; [intros ->; reflexivity|]. exists os. split; [|split; [congruence|]].
      * rewrite Htext. unfold buf. cbn -[bom_skip skipn]. rewrite skipn_app.
        replace (bom_skip b - length o)%nat with 0%nat by lia. reflexivity.
      * intros _ c' E'. injection E' as <-. exact H6.
Qed.

Definition source_chunks (s : list rd) (chunks : list bytes) : Prop :=
  exists tail, s = map Data chunks ++ tail /\ ends tail /\ Forall chunk_ok chunks.

Lemma stream_reads enc hn s chunks text fuel :
  source_chunks s chunks -> Source (SRCBUFSIZE * 4) enc chunks text ->
  (length text < fuel)%nat ->
  exists r2, read_all cv fuel (open_stream cv enc hn s) = Some (Ok (r2, eol_norm text)) /\
    (hn = true -> hashed cv r2 = concat chunks) /\
    loc cv r2 = count_lf (eol_norm text) /\ lastchar cv r2 = last (eol_norm text) 0.
Proof.
  intros (tail & Hs & He & Hck) HS Hf.
  assert (Hne : exists b bs, chunks = b :: bs) by (destruct HS; eauto).
  destruct Hne as (b & bs & ->).
  inversion Hck as [|? ? [Hb Hlen] Hck']; subst.
  set (r0 := open_stream cv enc hn (map Data (b :: bs) ++ tail)).
  set (rp := mkReader cv 0 0 false b 0 [] (SRCBUFSIZE * 4) enc false true hn [] 0 0 None (map Data bs ++ tail) SRCBUFSIZE).
  destruct (process_first (SRCBUFSIZE * 4) enc (b :: bs) text hn rp tail HS) as (r1 & n & P1 & P2 & P3 & P4 & P5 & P6 & P7);
    try reflexivity; try assumption.
  assert (Hr : readChars cv r0 = Ok (r1, n)).
  { unfold readChars, r0, open_stream. cbn -[Nat.leb SRCBUFSIZE].
    destruct b as [|b0 b']; [congruence|]. 
    replace (Nat.leb _ SRCBUFSIZE) with true by (symmetry; apply Nat.leb_le; cbn -[SRCBUFSIZE] in *; lia).
    rewrite <- P1. unfold rp. replace (SRCBUFSIZE - 0)%nat with SRCBUFSIZE by lia. reflexivity. }
  rewrite (read_all_fill r0 r1 n fuel eq_refl Hr P2 P3).
  destruct (read_all_rdy hn _ text (set_insize r1 n) fuel P4 Hf) as (r2 & G1 & G2 & G3 & G4).
  exists r2. unfold set_insize in *. cbn [lastcr loc lastchar] in *. rewrite P5, P6, P7 in *.
  rewrite eol_from_false in *. rewrite Nat.add_0_r in G3. repeat split; assumption.
Qed.

Lemma memory_reads enc hn b text fuel :
  b <> [] -> Source (length b * 4) enc [b] text ->
  (length text < fuel)%nat ->
  exists r0 r2, open_memory cv enc hn b = Ok r0 /\
    read_all cv fuel r0 = Some (Ok (r2, eol_norm text)) /\
    (hn = true -> hashed cv r2 = b) /\
    loc cv r2 = count_lf (eol_norm text) /\ lastchar cv r2 = last (eol_norm text) 0.
Proof.
  intros Hb HS Hf. unfold open_memory, readChars. cbn -[Nat.leb Nat.mul process].
  replace (Nat.eqb (length b) 0 || Nat.leb (length b) 0) with false
    by (destruct b; [congruence|reflexivity]).
  set (rp := mkReader cv 0 (length b) false b 0 [] (length b * 4) enc false true hn [] 0 0 None [] 0).
  destruct (process_first (length b * 4) enc [b] text hn rp [] HS) as (r1 & n & P1 & P2 & P3 & P4 & P5 & P6 & P7);
    try reflexivity; try (constructor).
  rewrite P1. cbn [obind].
  destruct (read_all_rdy hn _ text (set_insize r1 n) fuel P4 Hf) as (r2 & G1 & G2 & G3 & G4).
  exists (set_insize r1 n), r2. split; [reflexivity|].
  unfold set_insize in *. cbn [lastcr loc lastchar concat] in *. rewrite P5, P6, P7 in *.
  rewrite eol_from_false, app_nil_r in *. rewrite Nat.add_0_r in G3. repeat split; assumption.
Qed.
End P.
