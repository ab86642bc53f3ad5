(** Proofs for C19 (converting back), C28, C29, C30. *)
From Verif Require Import Base Reader_Spec Text_Model Text_Spec Text_Proofs.
Local Open Scope N_scope.

(** ** C19: converting the written line endings back *)
Definition eol_char (e : eol) (c : N) : bytes := if c =? 10 then ending e else [c].
Lemma unparse_flat : forall e s, unparse e s = flat_map (eol_char e) s.
Proof.
  intros e s.
  assert (G : unparse_loop e s [] = flat_map (eol_char e) s).
  { induction s as [|c s IH]; [reflexivity|]. cbn [unparse_loop flat_map]. rewrite unparse_loop_acc, IH.
    unfold eol_char. destruct (N.eqb_spec c 10) as [->|]; [destruct e|]; reflexivity. }
  destruct e; cbn [unparse]; try exact G.
  clear G. induction s as [|c s IH]; [reflexivity|]. cbn [flat_map]. rewrite <- IH.
  unfold eol_char. destruct (N.eqb_spec c 10) as [->|]; reflexivity.
Qed.

Lemma eol_norm_ne13 : forall c t, c <> 13 -> eol_norm (c :: t) = c :: eol_norm t.
Proof.
  intros c t H. destruct c as [|p]; [reflexivity|].
  do 4 (destruct p as [p|p|]; try reflexivity). congruence.
Qed.
Lemma eol_norm_13 : forall t, hd 0 t <> 10 -> eol_norm (13 :: t) = 10 :: eol_norm t.
Proof.
  intros [|c t] H; [reflexivity|]. cbn in H. cbn [eol_norm].
  destruct c as [|p]; [reflexivity|]. do 4 (destruct p as [p|p|]; try reflexivity). congruence.
Qed.

Lemma cr_head : forall s, no_byte 13 s -> hd 0 (flat_map (eol_char EOL_CR) s) <> 10.
Proof.
  intros [|c s] H; [discriminate|]. cbn [flat_map]. unfold eol_char at 1.
  destruct (N.eqb_spec c 10) as [->|E]; cbn; [discriminate|assumption].
Qed.
Lemma unparse_back : forall e s, no_byte 13 s -> eol_norm (unparse e s) = s.
Proof.
  intros e s H. rewrite unparse_flat. induction H as [|c s N H IH]; [reflexivity|].
  cbn [flat_map]. unfold eol_char at 1. destruct (N.eqb_spec c 10) as [->|E].
  - destruct e; cbn [ending app].
    + rewrite eol_norm_ne13 by discriminate. now rewrite IH.
    + rewrite eol_norm_ne13 by discriminate. now rewrite IH.
    + rewrite eol_norm_13 by (apply cr_head; assumption). now rewrite IH.
    + change (eol_norm (13 :: 10 :: flat_map (eol_char EOL_CRLF) s)) with (10 :: eol_norm (flat_map (eol_char EOL_CRLF) s)).
      now rewrite IH.
  - cbn [app]. rewrite eol_norm_ne13 by assumption. now rewrite IH.
Qed.

(** ** C29 *)
Lemma memchr_none : forall c s, no_byte c s -> memchr c s = None.
Proof.
  induction 1 as [|x s N _ IH]; [reflexivity|]. cbn. destruct (N.eqb_spec x c); [contradiction|]. now rewrite IH.
Qed.
Lemma memchr_app : forall c a b, no_byte c a -> memchr c (a ++ c :: b) = Some (a, c :: b).
Proof.
  induction 1 as [|x a N _ IH]; cbn; [now rewrite N.eqb_refl|].
  destruct (N.eqb_spec x c); [contradiction|]. now rewrite IH.
Qed.
Lemma attr_rev_bar : forall a b r, no_byte 124 a ->
  attribute_revision (a ++ 124 :: b) r = if Nat.eqb r 0 then a else b.
Proof. intros. unfold attribute_revision. rewrite memchr_app by assumption. reflexivity. Qed.
Lemma attr_rev_plain : forall a r, no_byte 124 a -> attribute_revision a r = a.
Proof. intros. unfold attribute_revision. now rewrite memchr_none. Qed.

(** ** C28 *)
Definition to_mode (p : part) : dmode := match p with Both => COMMON | OnlyOriginal => DELETE | OnlyModified => INSERT end.
Lemma inmode_belongs : forall rev p, inmode rev (to_mode p) = belongs rev p.
Proof. intros rev []; reflexivity. Qed.

Lemma strip_pre_some : forall p s, strip_pre p (p ++ s) = Some s.
Proof. induction p as [|a p IH]; intros s; cbn; [reflexivity|]. now rewrite N.eqb_refl. Qed.
Lemma strip_pre_none : forall p s, (forall r, s <> p ++ r) -> strip_pre p s = None.
Proof.
  induction p as [|a p IH]; intros s H; cbn.
  - exfalso. apply (H s). reflexivity.
  - destruct s as [|b s]; [reflexivity|]. destruct (N.eqb_spec a b) as [->|]; [|reflexivity].
    apply IH. intros r ->. apply (H r). reflexivity.
Qed.

Lemma app_fold : forall (a : N) x, [a] ++ x = a :: x. Proof. reflexivity. Qed.

(** one step of the loop over text and a tag *)
Lemma loop_tag : forall fuel rev to top st pre tag rest news,
  no_byte 60 pre -> no_byte 62 tag ->
  extract_loop (S fuel) rev to (top :: st) (pre ++ 60 :: tag ++ 62 :: rest) news =
  let news' := if inmode rev top then news ++ pre else news in
  match strip_pre (txt "diff:") tag with
  | Some tstart =>
      extract_loop fuel rev to
        ((match strip_pre (txt "delete") tstart with
          | Some _ => DELETE
          | None => match strip_pre (txt "insert") tstart with Some _ => INSERT | None => COMMON end
          end) :: top :: st) rest news'
  | None =>
      match strip_pre (txt "/diff:") tag with
      | Some _ => extract_loop fuel rev to st rest news'
      | None => extract_loop fuel rev to (top :: st) rest
                  (if inmode rev top && negb to then news' ++ 60 :: tag ++ [62] else news')
      end
  end.
Proof.
  intros fuel rev to top st pre tag rest news P T.
  cbn [extract_loop]. rewrite memchr_app by assumption.
  change (60 :: tag ++ 62 :: rest) with ((60 :: tag) ++ 62 :: rest).
  rewrite memchr_app by (constructor; [discriminate|assumption]). cbn [tl]. reflexivity.
Qed.

Definition keepif (b : bool) (t : bytes) : bytes := if b then t else [].
Lemma keepif_app : forall b x y, keepif b (x ++ y) = keepif b x ++ keepif b y.
Proof. intros [] x y; reflexivity. Qed.
Lemma if_app : forall (b : bool) (n t : bytes), (if b then n ++ t else n) = n ++ keepif b t.
Proof. intros [] n t; cbn; [reflexivity|now rewrite app_nil_r]. Qed.

Lemma diff_mode_of : forall q name a, diff_name q name -> attrs_ok a ->
  (match strip_pre (txt "delete") (name ++ a) with
   | Some _ => DELETE
   | None => match strip_pre (txt "insert") (name ++ a) with Some _ => INSERT | None => COMMON end
   end) = to_mode q.
Proof.
  intros q name a D _. destruct q; cbn in D.
  - destruct D as [-> | ->]; reflexivity.
  - subst. reflexivity.
  - subst. reflexivity.
Qed.
Lemma diff_name_nobyte : forall q name, diff_name q name -> no_byte 62 name /\ no_byte 60 name.
Proof.
  intros q name D.
  assert (forallb (fun c => negb (c =? 62) && negb (c =? 60)) name = true).
  { destruct q; cbn in D; [destruct D as [-> | ->]|subst|subst]; reflexivity. }
  rewrite forallb_forall in H. split; apply Forall_forall; intros x I; specialize (H x I); lia.
Qed.

Lemma no_byte_app : forall b x y, no_byte b (x ++ y) <-> no_byte b x /\ no_byte b y.
Proof. intros. apply Forall_app. Qed.

Lemma trailing_cons : forall f t x, trailing_text f t -> trailing_text ((x ++ [62]) ++ f) t.
Proof.
  intros f t x (N & [E|(g & E)]); (split; [assumption|]); right.
  - exists x. rewrite E, <- app_assoc. reflexivity.
  - exists ((x ++ [62]) ++ g). rewrite E, <- !app_assoc. reflexivity.
Qed.

Lemma extract_main : forall rev to p f k, srcdiff rev to p f k ->
  forall pre, no_byte 60 pre ->
  exists n k' t, no_byte 60 t /\ keepif (belongs rev p) pre ++ k = k' ++ keepif (belongs rev p) t /\
    trailing_text (pre ++ f) t /\
    forall fuel st r news,
      extract_loop (n + fuel) rev to (to_mode p :: st) (pre ++ f ++ r) news =
      extract_loop fuel rev to (to_mode p :: st) (t ++ r) (news ++ k').
Proof.
  intros rev to p f k H.
  induction H as [p | p t f k T H IH | p b f k B H IH | p q name a c kc f k D A Hc IHc H IH]; intros pre P.
  - exists 0%nat, [], pre. cbn [app Nat.add]. rewrite app_nil_r.
    split; [assumption|]. split; [reflexivity|]. split; [split; [assumption|left; rewrite app_nil_r; reflexivity]|].
    intros. rewrite app_nil_r. reflexivity.
  - destruct (IH (pre ++ t)) as (n & k' & t' & N' & E & TT & L).
    { apply no_byte_app. split; assumption. }
    exists n, k', t'. split; [assumption|]. split.
    { rewrite <- E. rewrite keepif_app, <- app_assoc. reflexivity. }
    split; [rewrite app_assoc; exact TT|].
    intros. rewrite <- L. rewrite <- !app_assoc. reflexivity.
  - destruct (IH []) as (n & k' & t' & N' & E & TT & L); [constructor|].
    cbn [app keepif] in E, TT, L. destruct B as (B1 & B2 & B3).
    exists (S n), (keepif (belongs rev p) pre ++ keepif (belongs rev p && negb to) (60 :: b ++ [62]) ++ k'), t'.
    split; [assumption|]. split.
    { assert (E' : k = k' ++ keepif (belongs rev p) t') by (destruct (belongs rev p); exact E).
      rewrite E', <- !app_assoc. reflexivity. }
    split.
    { replace (pre ++ (60 :: b ++ [62]) ++ f) with (((pre ++ 60 :: b) ++ [62]) ++ f) by (cbn [app]; rewrite <- !app_assoc; cbn [app]; rewrite <- ?app_assoc; reflexivity).
      apply trailing_cons. exact TT. }
    intros fuel st r news.
    replace (pre ++ ((60 :: b ++ [62]) ++ f) ++ r) with (pre ++ 60 :: b ++ 62 :: (f ++ r))
      by (cbn [app]; rewrite <- !app_assoc; reflexivity).
    cbn [Nat.add]. rewrite loop_tag by assumption. cbv zeta.
    rewrite strip_pre_none by assumption. rewrite strip_pre_none by assumption.
    rewrite inmode_belongs, !if_app. rewrite L. rewrite <- !app_assoc. reflexivity.
  - destruct (IHc []) as (n1 & k1 & t1 & N1 & E1 & T1 & L1); [constructor|].
    destruct (IH []) as (n2 & k2 & t2 & N2 & E2 & T2 & L2); [constructor|].
    cbn [app] in L1, L2, T1, T2.
    assert (E1' : kc = k1 ++ keepif (belongs rev q) t1) by (destruct (belongs rev q); exact E1).
    assert (E2' : k = k2 ++ keepif (belongs rev p) t2) by (destruct (belongs rev p); exact E2).
    destruct (diff_name_nobyte q name D) as (D1 & D2).
    exists (S (n1 + S n2)), (keepif (belongs rev p) pre ++ kc ++ k2), t2.
    split; [assumption|]. split; [rewrite E2', <- !app_assoc; reflexivity|].
    split.
    { replace (pre ++ txt "<diff:" ++ name ++ a ++ [62] ++ c ++ txt "</diff:" ++ name ++ [62] ++ f)
        with (((pre ++ txt "<diff:" ++ name ++ a ++ [62] ++ c ++ txt "</diff:" ++ name) ++ [62]) ++ f)
        by (rewrite <- !app_assoc; reflexivity).
      apply trailing_cons. exact T2. }
    intros fuel st r news.
    replace (pre ++ (txt "<diff:" ++ name ++ a ++ [62] ++ c ++ txt "</diff:" ++ name ++ [62] ++ f) ++ r)
      with (pre ++ 60 :: (txt "diff:" ++ name ++ a) ++ 62 :: (c ++ (60 :: (txt "/diff:" ++ name) ++ 62 :: (f ++ r))))
      by (repeat rewrite <- app_assoc; reflexivity).
    change (S (n1 + S n2) + fuel)%nat with (S ((n1 + S n2) + fuel)).
    assert (TG1 : no_byte 62 (txt "diff:" ++ name ++ a)).
    { apply no_byte_app. split; [repeat (constructor; [discriminate|]); constructor|]. apply no_byte_app. split; [assumption|apply A]. }
    assert (TG2 : no_byte 62 (txt "/diff:" ++ name)).
    { apply no_byte_app. split; [repeat (constructor; [discriminate|]); constructor|assumption]. }
    rewrite loop_tag by assumption. cbv zeta.
    rewrite strip_pre_some. rewrite (diff_mode_of q name a D A).
    replace (n1 + S n2 + fuel)%nat with (n1 + (S n2 + fuel))%nat by lia.
    rewrite L1. cbn [Nat.add].
    rewrite loop_tag by assumption. cbv zeta.
    rewrite strip_pre_none by (intros r0 Q; discriminate Q).
    rewrite strip_pre_some. rewrite L2. rewrite !inmode_belongs, !if_app.
    f_equal. rewrite E1', <- !app_assoc. reflexivity.
Qed.

Lemma loop_end : forall fuel rev to st t news, no_byte 60 t -> extract_loop (S fuel) rev to st t news = Ok news.
Proof. intros. cbn [extract_loop]. now rewrite memchr_none. Qed.

(** more fuel does not change a finished run *)
Lemma loop_mono : forall fuel rev to st s news r, extract_loop fuel rev to st s news = Ok r ->
  extract_loop (S fuel) rev to st s news = Ok r.
Proof.
  induction fuel as [|fuel IH]; intros rev to st s news r H; [discriminate|].
  cbn [extract_loop] in H. remember (S fuel) as g. cbn [extract_loop]. subst g.
  destruct (memchr 60 s) as [[before sp]|]; [|exact H].
  destruct st as [|top rest]; [discriminate|].
  destruct (memchr 62 sp) as [[ot gt]|]; [|discriminate].
  destruct (strip_pre (txt "diff:") (tl ot)); [apply IH; exact H|].
  destruct (strip_pre (txt "/diff:") (tl ot)); apply IH; exact H.
Qed.
Lemma loop_mono' : forall d fuel rev to st s news r, extract_loop fuel rev to st s news = Ok r ->
  extract_loop (d + fuel) rev to st s news = Ok r.
Proof. induction d; intros; [assumption|]. cbn [Nat.add]. apply loop_mono. now apply IHd. Qed.

(** the fuel in [extract_revision] always suffices *)
Lemma memchr_len : forall c s a b, memchr c s = Some (a, b) -> s = a ++ b /\ exists b', b = c :: b'.
Proof.
  induction s as [|x s IH]; intros a b H; [discriminate|]. cbn in H.
  destruct (N.eqb_spec x c) as [->|].
  - injection H as <- <-. split; [reflexivity|eauto].
  - destruct (memchr c s) as [[a' b']|]; [|discriminate]. injection H as <- <-.
    destruct (IH a' b' eq_refl) as (-> & E). split; [reflexivity|exact E].
Qed.
Lemma loop_fuel : forall k fuel rev to st s news r, (length s < fuel)%nat ->
  extract_loop (k + fuel) rev to st s news = Ok r -> extract_loop fuel rev to st s news = Ok r.
Proof.
  intros k fuel. induction fuel as [|fuel IH]; intros rev to st s news r L H; [lia|].
  replace (k + S fuel)%nat with (S (k + fuel)) in H by lia.
  cbn [extract_loop] in H |- *.
  destruct (memchr 60 s) as [[before sp]|] eqn:M; [|exact H].
  destruct st as [|top rest]; [discriminate|].
  destruct (memchr 62 sp) as [[ot gt]|] eqn:M2; [|discriminate].
  apply memchr_len in M. destruct M as (-> & sp' & ->).
  apply memchr_len in M2. destruct M2 as (E & gt' & ->).
  assert (LL : (length gt' < fuel)%nat).
  { apply (f_equal (@length N)) in E. rewrite app_length in E. cbn [length] in E.
    rewrite app_length in L. cbn [length] in L. lia. }
  cbn [tl] in H |- *.
  destruct (strip_pre (txt "diff:") (tl ot)); [apply IH; [exact LL|exact H]|].
  destruct (strip_pre (txt "/diff:") (tl ot)); (apply IH; [exact LL|exact H]).
Qed.

Lemma extract_general : forall rev to f k, srcdiff rev to Both f k ->
  exists k' t, extract_revision f rev to = Ok k' /\ k = k' ++ t /\ trailing_text f t.
Proof.
  intros rev to f k H. destruct (extract_main rev to Both f k H [] ltac:(constructor)) as (n & k' & t & N & E & TT & L).
  cbn [app belongs keepif] in *. exists k', t. split; [|split; assumption].
  specialize (L (S O) [] [] []). cbn [app] in L. rewrite !app_nil_r in L.
  rewrite loop_end in L by assumption. cbn [app] in L.
  unfold extract_revision.
  apply loop_fuel with (k := (n + 1)%nat); [lia|].
  apply loop_mono' with (d := S (length f)) in L.
  replace (n + 1 + S (length f))%nat with (S (length f) + (n + 1))%nat by lia. exact L.
Qed.

Lemma app_inj_tail' : forall (x y : bytes) a b, x ++ [a] = y ++ [b] -> x = y /\ a = b.
Proof. intros. apply app_inj_tail. assumption. Qed.

Lemma trailing_of_tag : forall f t, ends_with_tag f -> trailing_text f t -> t = [].
Proof.
  intros f t [->|(g & b & -> & B1 & B2)] (N & T).
  - destruct T as [<-|(g & E)]; [reflexivity|]. destruct g; discriminate.
  - destruct T as [<-|(g' & E)].
    + exfalso. apply no_byte_app in N. destruct N as (_ & N). cbn in N. apply Forall_cons_iff in N. destruct N as (N & _). now apply N.
    + destruct t as [|c t] using rev_ind; [reflexivity|]. clear IHt. exfalso.
      replace (g ++ [60] ++ b ++ [62]) with ((g ++ [60] ++ b) ++ [62]) in E by (rewrite <- !app_assoc; reflexivity).
      replace (g' ++ [62] ++ t ++ [c]) with ((g' ++ [62] ++ t) ++ [c]) in E by (rewrite <- !app_assoc; reflexivity).
      apply app_inj_tail' in E. destruct E as (E & _).
      apply no_byte_app in N. destruct N as (N & _).
      (* compare the suffixes [60]++b and [62]++t *)
      revert b B1 B2 E. induction t as [|x t IH] using rev_ind; intros b B1 B2 E.
      * destruct b as [|y b] using rev_ind.
        -- cbn in E. change (g ++ [60] = g' ++ [62]) in E. apply app_inj_tail' in E. destruct E; discriminate.
        -- replace (g ++ [60] ++ b ++ [y]) with ((g ++ [60] ++ b) ++ [y]) in E by (rewrite <- !app_assoc; reflexivity).
           rewrite app_nil_r in E. apply app_inj_tail' in E. destruct E as (_ & ->).
           apply no_byte_app in B2. destruct B2 as (_ & B2). apply Forall_cons_iff in B2. destruct B2 as (B2 & _). now apply B2.
      * replace (g' ++ [62] ++ t ++ [x]) with ((g' ++ [62] ++ t) ++ [x]) in E by (rewrite <- !app_assoc; reflexivity).
        apply no_byte_app in N. destruct N as (N & NX).
        destruct b as [|y b] using rev_ind.
        -- rewrite app_nil_r in E. apply app_inj_tail' in E. destruct E as (_ & <-).
           apply Forall_cons_iff in NX. destruct NX as (NX & _). now apply NX.
        -- replace (g ++ [60] ++ b ++ [y]) with ((g ++ [60] ++ b) ++ [y]) in E by (rewrite <- !app_assoc; reflexivity).
           apply app_inj_tail' in E. destruct E as (E & ->). clear IHb.
           apply no_byte_app in B1. apply no_byte_app in B2. apply (IH N b); [apply B1|apply B2|exact E].
Qed.

Lemma extract_tagged : forall rev to f k, srcdiff rev to Both f k -> ends_with_tag f ->
  extract_revision f rev to = Ok k.
Proof.
  intros rev to f k H T. destruct (extract_general rev to f k H) as (k' & t & E & -> & TT).
  rewrite (trailing_of_tag f t T TT), app_nil_r. exact E.
Qed.

(** without diff markup the fragment is its own revision *)
Inductive plain_fragment : bytes -> Prop :=
| pf_nil : plain_fragment []
| pf_text t f : no_byte 60 t -> plain_fragment f -> plain_fragment (t ++ f)
| pf_tag b f : plain_tag b -> plain_fragment f -> plain_fragment ((60 :: b ++ [62]) ++ f).
Lemma plain_srcdiff : forall rev f, plain_fragment f -> srcdiff rev false Both f f.
Proof.
  intros rev f H. induction H as [|t f T _ IH|b f B _ IH]; [constructor| |].
  - exact (sd_text rev false Both t f f T IH).
  - exact (sd_tag rev false Both b f f B IH).
Qed.
Lemma extract_plain : forall rev f, plain_fragment f -> ends_with_tag f -> extract_revision f rev false = Ok f.
Proof. intros. apply extract_tagged; [now apply plain_srcdiff|assumption]. Qed.
