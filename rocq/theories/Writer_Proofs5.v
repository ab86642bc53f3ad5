(** Proofs for the inner and outer srcML of a unit (C21). *)
From Verif Require Import Base Text_Model Text_Spec Text_Proofs Text_Proofs2 Text_Proofs3 Api_Model Api_Proofs Api_Proofs3 Writer_Model Writer_Spec Writer_Proofs Writer_Proofs2 Writer_Proofs3 Writer_Proofs4.
Local Open Scope N_scope.

(** ** Inner *)
Lemma inner_ok : forall uo tag q kids, uo_srcml uo = unit_xml tag q (content_of kids) ->
  uo_content uo = (Z.of_nat (length tag) + 1, Z.of_nat (length tag) + 1 + match kids with [] => 0 | _ => 1 + Z.of_nat (length (xml_all kids)) end)%Z ->
  inner uo = Ok (xml_all kids).
Proof.
  intros uo tag q kids S C. unfold inner. rewrite C. cbn [fst snd].
  destruct kids as [|k l]; cbn [content_of unit_xml] in S.
  - match goal with |- context [(?x <=? 0)%Z] => destruct (x <=? 0)%Z eqn:E end; [reflexivity|apply Z.leb_gt in E; lia].
  - set (c := xml_all (k :: l)) in *.
    match goal with |- context [(?x <=? 0)%Z] => destruct (x <=? 0)%Z eqn:E end.
    + apply Z.leb_le in E. destruct c; [reflexivity|cbn [length] in E; lia].
    + match goal with |- context [if ?x then _ else _] => destruct x eqn:E2 end.
      * apply orb_true_iff in E2 as [E2|E2]; apply Z.ltb_lt in E2; [lia|]. rewrite S, !app_length in E2. cbn [length txt list_ascii_of_string map] in E2. lia.
      * f_equal. rewrite S.
        replace (tag ++ txt ">" ++ c ++ txt "</" ++ q ++ txt ">") with ((tag ++ [62]) ++ c ++ txt "</" ++ q ++ txt ">") by (rewrite <- app_assoc; reflexivity).
        replace (Z.to_nat (Z.of_nat (length tag) + 1)) with (length (tag ++ [62%N]) + 0)%nat by (rewrite app_length; cbn [length]; lia).
        rewrite skipn_len. cbn [skipn].
        replace (Z.to_nat (Z.of_nat (length tag) + 1 + (1 + Z.of_nat (length c)) - (Z.of_nat (length tag) + 1) - 1)) with (length c) by lia.
        apply firstn_pre.
Qed.

(** ** Looking for " url=" *)
Notation URL := (txt " url=").
Definition skips (x z : bytes) : Prop := strstr (x ++ z) URL = option_map (fun n => (length x + n)%nat) (strstr z URL).
Lemma om_id : forall o, option_map (fun n : nat => (0 + n)%nat) o = o. Proof. intros [n|]; reflexivity. Qed.
Lemma om_comp : forall a b o, option_map (fun n : nat => (a + n)%nat) (option_map (fun n => (b + n)%nat) o) = option_map (fun n => (a + b + n)%nat) o.
Proof. intros a b [n|]; [cbn; f_equal; lia|reflexivity]. Qed.
Lemma skips_app : forall x y z, skips x (y ++ z) -> skips y z -> skips (x ++ y) z.
Proof. unfold skips. intros x y z H1 H2. rewrite <- app_assoc, H1, H2, om_comp, app_length. reflexivity. Qed.
Lemma skips_other : forall c z, c <> 32 -> skips [c] z.
Proof.
  intros c z H. unfold skips. cbn [app strstr]. destruct (beqb (firstn (length URL) (c :: z)) URL) eqn:B.
  - apply beqb_true in B. cbn in B. injection B as B _. contradiction.
  - destruct (strstr z URL); reflexivity.
Qed.
Lemma skips_space : forall z, (forall r, z <> txt "url=" ++ r) -> skips [32] z.
Proof.
  intros z H. unfold skips. cbn [app strstr]. destruct (beqb (firstn (length URL) (32 :: z)) URL) eqn:B.
  - apply beqb_true in B. exfalso. apply (H (skipn 4 z)). change (length URL) with 5%nat in B. cbn [firstn] in B.
    assert (B2 : firstn 4 z = txt "url=") by (change URL with (32 :: txt "url=") in B; injection B as B; exact B).
    rewrite <- B2. symmetry. apply firstn_skipn.
  - destruct (strstr z URL); reflexivity.
Qed.
Lemma skips_plain : forall x z, no_byte 32 x -> skips x z.
Proof.
  induction x as [|c x IH]; intros z H; [unfold skips; symmetry; apply om_id|]. inversion H; subst.
  apply (skips_app [c] x); [apply skips_other; assumption|apply IH; assumption].
Qed.
(** the start of a shorter text cannot reach over a quote *)
Lemma starts_quote : forall e z r, no_byte 34 e -> e ++ 34 :: z = txt "url=" ++ r -> exists y, e = txt "url=" ++ y.
Proof.
  intros e z r H E. change (txt "url=") with [117; 114; 108; 61] in *.
  do 4 (destruct e as [|? e]; cbn [app] in E; [discriminate E|injection E as -> E]). exists e. reflexivity.
Qed.
Lemma skips_value : forall e z, no_byte 34 e -> ~ contains e URL -> skips (e ++ [34]) z.
Proof.
  induction e as [|c e IH]; intros z H N; [apply skips_other; discriminate|]. inversion H; subst.
  assert (R : skips (e ++ [34]) z) by (apply IH; [assumption|intros (x & y & E); apply N; exists (c :: x), y; rewrite E; reflexivity]).
  cbn [app]. apply (skips_app [c] (e ++ [34])); [|exact R].
  destruct (N.eq_dec c 32) as [->|D]; [|apply skips_other, D]. apply skips_space. intros r E. rewrite <- app_assoc in E. cbn [app] in E.
  apply starts_quote in E as (y & ->); [|assumption]. apply N. exists [], y. reflexivity.
Qed.
Lemma esc_head : forall v c e, esc_attr v = c :: e -> c <> 38 -> exists v', v = c :: v' /\ e = esc_attr v'.
Proof.
  intros [|d v] c e E N; [discriminate|].
  change (esc_attr (d :: v)) with ((if d =? 34 then txt "&quot;" else if d =? 60 then txt "&lt;" else if d =? 62 then txt "&gt;"
                     else if d =? 38 then txt "&amp;" else if d =? 10 then txt "&#10;" else if d =? 9 then txt "&#9;"
                     else if d =? 13 then txt "&#13;" else [d]) ++ esc_attr v) in E.
  repeat match type of E with context [if ?x =? ?k then _ else _] => let J := fresh "J" in destruct (x =? k) eqn:J;
     [exfalso; apply N; cbn in E; injection E as E _; symmetry; exact E|] end.
  cbn [app] in E. injection E as -> <-. exists v. auto.
Qed.
Lemma esc_starts : forall p v r, no_byte 38 p -> esc_attr v = p ++ r -> exists v', v = p ++ v'.
Proof.
  induction p as [|c p IH]; intros v r H E; [exists v; reflexivity|]. inversion H; subst. cbn [app] in E.
  apply esc_head in E as (v' & -> & E); [|assumption]. symmetry in E. apply IH in E as (v2 & ->); [|assumption]. exists v2. reflexivity.
Qed.
Lemma esc_contains : forall v, contains (esc_attr v) URL -> contains v URL.
Proof.
  intros v (x & y & E). revert x E. induction v as [|c v IH]; intros x E; [destruct x; discriminate|].
  pose proof E as E0.
  change (esc_attr (c :: v)) with ((if c =? 34 then txt "&quot;" else if c =? 60 then txt "&lt;" else if c =? 62 then txt "&gt;"
                     else if c =? 38 then txt "&amp;" else if c =? 10 then txt "&#10;" else if c =? 9 then txt "&#9;"
                     else if c =? 13 then txt "&#13;" else [c]) ++ esc_attr v) in E.
  assert (G : forall x, esc_attr v = x ++ URL ++ y -> contains (c :: v) URL).
  { intros x' E'. destruct (IH _ E') as (a & b & ->). exists (c :: a), b. reflexivity. }
  assert (K : forall p : bytes, no_byte 32 p -> forall x, p ++ esc_attr v = x ++ URL ++ y -> exists x', esc_attr v = x' ++ URL ++ y).
  { clear. induction p as [|d p IHp]; intros H x E; [exists x; exact E|]. inversion H; subst. destruct x as [|e x]; [cbn in E; injection E as E _; congruence|].
    cbn [app] in E. injection E as _ E. apply (IHp H3 x E). }
  repeat match type of E with context [if ?a =? ?k then _ else _] => let J := fresh "J" in destruct (a =? k) eqn:J;
     [apply K in E as (x' & E); [apply (G _ E)|repeat constructor; discriminate]|] end.
  destruct x as [|d x].
  - cbn [app] in E0. apply (esc_starts URL (c :: v) y) in E0 as (v' & E0); [|repeat constructor; discriminate]. exists [], v'. exact E0.
  - cbn [app] in E. injection E as _ E. apply (G _ E).
Qed.
Lemma skips_attr : forall p z, not_url p -> skips (attr p) z.
Proof.
  intros [n v] z (N & U & V). cbn [fst snd] in *. unfold attr. cbn [fst snd].
  assert (N32 : no_byte 32 n) by (unfold no_byte; eapply Forall_impl; [|exact N]; intros c H; apply H).
  assert (N61 : no_byte 61 n) by (unfold no_byte; eapply Forall_impl; [|exact N]; intros c H; apply H).
  apply (skips_app [32]).
  - apply skips_space. intros r E. rewrite <- !app_assoc in E. apply U.
    change (txt "url=") with [117; 114; 108; 61] in E. change (txt "=""" ) with [61; 34] in E.
    destruct n as [|c1 n]; [discriminate E|]. cbn [app] in E. injection E as -> E.
    destruct n as [|c2 n]; [discriminate E|]. cbn [app] in E. injection E as -> E.
    destruct n as [|c3 n]; [discriminate E|]. cbn [app] in E. injection E as -> E.
    destruct n as [|c4 n]; [reflexivity|]. cbn [app] in E. injection E as -> E.
    exfalso. inversion N61 as [|? ? ? Q1]; subst. inversion Q1 as [|? ? ? Q2]; subst. inversion Q2 as [|? ? ? Q3]; subst. inversion Q3 as [|? ? Q4 ?]; subst. apply Q4. reflexivity.
  - apply skips_app; [apply skips_plain; exact N32|]. apply skips_app; [apply skips_plain; repeat constructor; discriminate|].
    apply skips_value; [apply esc_attr_no|]. intros C. apply V, esc_contains, C.
Qed.
Lemma skips_attrs : forall l z, Forall not_url l -> skips (attrs l) z.
Proof.
  induction l as [|p l IH]; intros z H; [unfold skips; symmetry; apply om_id|]. inversion H; subst.
  change (attrs (p :: l)) with (attr p ++ attrs l). apply skips_app; [apply skips_attr; assumption|apply IH; assumption].
Qed.

(** ** Outer *)
Definition no62_pair (p : bytes * bytes) : Prop := no_byte 62 (fst p).
Lemma attrs_no62 : forall l, Forall no62_pair l -> no_byte 62 (attrs l).
Proof.
  induction l as [|[n v] l IH]; intros H; [constructor|]. inversion H; subst.
  change (attrs ((n, v) :: l)) with (([32] ++ n ++ txt "=""" ++ esc_attr v ++ [34]) ++ attrs l). rewrite !no_byte_app.
  repeat split; try (repeat constructor; discriminate); try assumption; [apply esc_attr_no|apply IH; assumption].
Qed.
Lemma not_url_62 : forall l, Forall not_url l -> Forall no62_pair l.
Proof. intros l H. eapply Forall_impl; [|exact H]. intros p (N & _). unfold no62_pair, no_byte. eapply Forall_impl; [|exact N]. intros c G. apply G. Qed.

Lemma substr_mid : forall (x y z : bytes) (p n : Z), p = Z.of_nat (length x) -> n = Z.of_nat (length y) -> substr (x ++ y ++ z) p n = Ok y.
Proof.
  intros x y z p n -> ->. unfold substr.
  destruct ((Z.of_nat (length x) <? 0)%Z || (Z.of_nat (length (x ++ y ++ z)) <? Z.of_nat (length x))%Z) eqn:E.
  - apply orb_true_iff in E as [E|E]; apply Z.ltb_lt in E; [lia|rewrite app_length in E; lia].
  - destruct (Z.of_nat (length y) <? 0)%Z eqn:E2; [apply Z.ltb_lt in E2; lia|]. rewrite !Nat2Z.id.
    replace (length x) with (length x + 0)%nat by lia. rewrite skipn_len. cbn [skipn]. rewrite firstn_pre. reflexivity.
Qed.
Lemma substr_end : forall (x y : bytes) (p n : Z), p = Z.of_nat (length x) -> n = Z.of_nat (length y) -> substr (x ++ y) p n = Ok y.
Proof. intros x y p n H1 H2. rewrite <- (app_nil_r y) at 1. apply substr_mid; assumption. Qed.
(** a tail that begins with the end of the start tag *)
Definition tag_end (tail : bytes) : Prop := exists r, tail = 62 :: r \/ tail = 47 :: 62 :: r.
Lemma outer_ok : forall uo el d before url after tail,
  let s := [60] ++ el ++ attr d ++ attrs before ++ attrs (given (txt "url") url) ++ attrs after ++ tail in
  uo_srcml uo = s -> uo_insert uo = (Z.of_nat (length ([60%N] ++ el)) + 1, Z.of_nat (length ([60%N] ++ el ++ attr d)) + 1)%Z ->
  no_byte 62 el -> no_byte 32 el -> not_url d -> Forall not_url (before ++ after) -> before <> [] -> tag_end tail ->
  outer uo = Ok ([60] ++ el ++ attrs (before ++ after) ++ tail).
Proof.
  intros uo el d before url after tail s S I E62 E32 ND NU NE TE. unfold outer. rewrite S, I. cbn [fst snd].
  apply Forall_app in NU as [NB NA].
  set (pre := [60] ++ el ++ attr d ++ attrs before). set (mid := attrs (given (txt "url") url)).
  assert (SE : s = pre ++ mid ++ attrs after ++ tail) by (unfold s, pre, mid; rewrite <- !app_assoc; reflexivity).
  assert (P62 : no_byte 62 pre).
  { unfold pre. rewrite !no_byte_app. repeat split; [repeat constructor; discriminate|exact E62| |].
    - replace (attr d) with (attrs [d]) by (unfold attrs; cbn [flat_map]; rewrite app_nil_r; reflexivity). apply attrs_no62. apply not_url_62. constructor; [exact ND|constructor].
    - apply attrs_no62, not_url_62, NB. }
  assert (M62 : no_byte 62 mid).
  { unfold mid. apply attrs_no62. destruct url; [|constructor]. constructor; [|constructor]. unfold no62_pair. cbn. repeat constructor; discriminate. }
  assert (A62 : no_byte 62 (attrs after)) by (apply attrs_no62, not_url_62, NA).
  (* the text before the first '>' *)
  assert (TS : exists slash r, tail = slash ++ 62 :: r /\ no_byte 62 slash /\ no_byte 32 slash /\ no_byte 34 slash).
  { destruct TE as (r & [-> | ->]); [exists [], r|exists [47], r]; repeat split; repeat constructor; discriminate. }
  destruct TS as (slash & r & -> & S62 & S32 & S34).
  assert (SE2 : s = (pre ++ mid ++ attrs after ++ slash) ++ 62 :: r) by (rewrite SE, <- !app_assoc; reflexivity).
  assert (POS : strchr s 62 = Some (length (pre ++ mid ++ attrs after ++ slash))).
  { rewrite SE2. apply strchr_app. rewrite !no_byte_app. auto. }
  assert (FN : firstn (length (pre ++ mid ++ attrs after ++ slash)) s = pre ++ mid ++ attrs after ++ slash) by (rewrite SE2; apply firstn_pre).
  rewrite POS, FN.
  assert (SK : forall z, skips pre z).
  { intros z. unfold pre. apply skips_app; [apply skips_other; discriminate|]. apply skips_app; [apply skips_plain, E32|].
    apply skips_app; [apply skips_attr, ND|apply skips_attrs, NB]. }
  assert (HB : exists b0, attrs before = 32 :: b0) by (apply attrs_head, NE). destruct HB as (b0 & HB).
  assert (SA : forall z, skips (attrs after ++ slash) z).
  { intros z. apply skips_app; [apply skips_attrs, NA|apply skips_plain, S32]. }
  assert (HEAD : substr s 0 (Z.of_nat (length ([60%N] ++ el)) + 1) = Ok ([60] ++ el ++ [32])).
  { assert (SX : exists z, s = [] ++ ([60] ++ el ++ [32]) ++ z).
    { unfold s, attr. eexists. rewrite <- !app_assoc. reflexivity. }
    destruct SX as (z & ->). apply substr_mid; [reflexivity|]. rewrite !app_length. cbn [length]. lia. }
  rewrite HEAD. cbn [obind].
  set (cut := [60] ++ el ++ attr d ++ [32]).
  assert (CUT : (Z.of_nat (length ([60%N] ++ el ++ attr d)) + 1)%Z = Z.of_nat (length cut)).
  { unfold cut. rewrite !app_length. cbn [length]. lia. }
  assert (SC : s = cut ++ b0 ++ mid ++ attrs after ++ slash ++ 62 :: r).
  { unfold s, cut. rewrite HB. fold mid. rewrite <- !app_assoc. reflexivity. }
  destruct url as [v|].
  - assert (MID : mid = URL ++ [34] ++ esc_attr v ++ [34]).
    { unfold mid. cbn [given attrs flat_map]. unfold attr. cbn [fst snd]. rewrite app_nil_r. reflexivity. }
    assert (F : strstr (pre ++ mid ++ attrs after ++ slash) URL = Some (length pre)).
    { rewrite SK. rewrite MID. rewrite <- !app_assoc. rewrite strstr_at. cbn [option_map]. f_equal. lia. }
    rewrite F.
    assert (Q : strchr (skipn (length pre + 6) (pre ++ mid ++ attrs after ++ slash)) 34 = Some (length (esc_attr v))).
    { rewrite skipn_len, MID. change ((URL ++ [34] ++ esc_attr v ++ [34]) ++ attrs after ++ slash) with ((32 :: 117 :: 114 :: 108 :: 61 :: 34 :: (esc_attr v ++ [34])) ++ attrs after ++ slash).
      cbn [app skipn]. rewrite <- app_assoc. cbn [app]. apply strchr_app, esc_attr_no. }
    rewrite Q. cbn [obind].
    assert (LM : (Z.of_nat (length pre + 6 + length (esc_attr v)) + 1)%Z = Z.of_nat (length (pre ++ mid))).
    { rewrite app_length, MID, !app_length. cbn [length txt list_ascii_of_string map]. lia. }
    rewrite LM. destruct (Z.of_nat (length pre) =? 0)%Z eqn:Z0; [apply Z.eqb_eq in Z0; unfold pre in Z0; rewrite app_length in Z0; cbn [length] in Z0; lia|].
    assert (LP : (Z.of_nat (length pre) - Z.of_nat (length cut))%Z = Z.of_nat (length b0)).
    { unfold pre, cut. rewrite HB, !app_length. cbn [length]. lia. }
    rewrite CUT, LP. rewrite SC at 1. rewrite (substr_mid cut b0) by reflexivity. cbn [obind].
    replace (substr s (Z.of_nat (length (pre ++ mid))) (Z.of_nat (length s) - Z.of_nat (length (pre ++ mid)))) with (@Ok bytes (attrs after ++ slash ++ 62 :: r)).
    + cbn [obind]. f_equal. rewrite attrs_app, HB. rewrite <- !app_assoc. reflexivity.
    + symmetry. rewrite SE. replace (pre ++ mid ++ attrs after ++ slash ++ 62 :: r) with ((pre ++ mid) ++ attrs after ++ slash ++ 62 :: r) by (rewrite <- app_assoc; reflexivity).
      apply substr_end; [reflexivity|]. rewrite (app_length (pre ++ mid)). lia.
  - assert (MID : mid = []) by reflexivity. rewrite MID in *.
    assert (F : strstr (pre ++ [] ++ attrs after ++ slash) URL = None).
    { rewrite SK. cbn [app]. rewrite <- (app_nil_r (attrs after ++ slash)), SA. reflexivity. }
    rewrite F. rewrite CUT. rewrite SC at 1 2. cbn [app] in *.
    rewrite (substr_end cut); [|reflexivity|rewrite app_length; lia]. cbn [obind]. f_equal. rewrite attrs_app, HB, <- !app_assoc. reflexivity.
Qed.
