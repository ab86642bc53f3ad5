(** Proofs for C05, C06, C07, C19, C20. *)
From Verif Require Import Base Text_Model Text_Spec.
Local Open Scope N_scope.

(** ** C05 *)
Lemma no_special_xml : forall s, Forall (fun c => c <> 60 /\ c <> 62 /\ c <> 38) s -> xml_text s s.
Proof. induction 1 as [|c s (A & B & C) _ IH]; constructor; auto. Qed.

Lemma esc_xml : forall s, xml_text (flat_map esc_char s) s.
Proof.
  induction s as [|c s IH]; [constructor|]. cbn [flat_map]. unfold esc_char.
  destruct (N.eqb_spec c 60) as [->|A]; [now apply xt_lt|].
  destruct (N.eqb_spec c 62) as [->|B]; [now apply xt_gt|].
  destruct (N.eqb_spec c 38) as [->|C]; [now apply xt_amp|].
  now apply xt_plain.
Qed.

Lemma strpbrk_false : forall s, no_byte 0 s -> strpbrk_special s = false ->
  Forall (fun c => c <> 60 /\ c <> 62 /\ c <> 38) s.
Proof.
  induction 1 as [|c s N _ IH]; [constructor|]. cbn. intros H.
  destruct (N.eqb_spec c 0); [contradiction|].
  destruct (N.eqb_spec c 60), (N.eqb_spec c 62), (N.eqb_spec c 38); cbn in H; try discriminate.
  constructor; auto.
Qed.

Lemma process_text_ok : forall s, no_byte 0 s -> xml_text (process_text s) s.
Proof.
  intros s N. unfold process_text. destruct (strpbrk_special s) eqn:E.
  - apply esc_xml.
  - apply no_special_xml, strpbrk_false; assumption.
Qed.

Lemma xml_text_inv_special : forall c e d, xml_text (c :: e) d -> c <> 38 ->
  exists d', d = c :: d' /\ xml_text e d' /\ c <> 60 /\ c <> 62.
Proof.
  intros c e d H N. inversion H as [| c0 e0 d0 A B C D| | |]; subst; try congruence. eauto.
Qed.

Lemma xml_text_det : forall e d1, xml_text e d1 -> forall d2, xml_text e d2 -> d1 = d2.
Proof.
  induction 1 as [| c e d A B C H IH | e d H IH | e d H IH | e d H IH]; intros d2 H2.
  - inversion H2; subst; reflexivity.
  - apply xml_text_inv_special in H2; [|assumption]. destruct H2 as (d' & -> & H2 & _). f_equal. auto.
  - inversion H2 as [| c0 e0 d0 A0 B0 C0 D0 |e0 d0 D0|e0 d0 D0|e0 d0 D0]; subst; try congruence. f_equal. auto.
  - inversion H2 as [| c0 e0 d0 A0 B0 C0 D0 |e0 d0 D0|e0 d0 D0|e0 d0 D0]; subst; try congruence. f_equal. auto.
  - inversion H2 as [| c0 e0 d0 A0 B0 C0 D0 |e0 d0 D0|e0 d0 D0|e0 d0 D0]; subst; try congruence. f_equal. auto.
Qed.

Lemma xml_text_raw : forall e d, xml_text e d -> no_byte 60 e /\ no_byte 62 e.
Proof.
  induction 1 as [| c e d A B C H IH | e d H IH | e d H IH | e d H IH];
    split; repeat constructor; try assumption; try (apply IH); cbv; discriminate.
Qed.

(** a NUL byte hides the rest of the string from the test *)
Lemma nul_refutes : forall d, ~ xml_text (process_text [0; 60]) d.
Proof.
  intros d H. change (process_text [0; 60]) with [0; 60] in H.
  apply xml_text_raw in H. destruct H as (A & _).
  inversion A as [|? ? _ B]; subst. inversion B; congruence.
Qed.

(** ** C06 *)
Definition all_bytes : list N := map N.of_nat (seq 0 256).
Lemma in_all_bytes : forall c, c < 256 -> In c all_bytes.
Proof.
  intros c H. unfold all_bytes. apply in_map_iff. exists (N.to_nat c). split; [lia|]. apply in_seq. lia.
Qed.
Definition escape_check (sg : bool) (c : N) : bool :=
  (read_escape (escape_attr (char_to_int sg c)) =? c) &&
  forallb (fun x => negb ((x =? 60) || (x =? 62) || (x =? 38) || (x =? 34) || (x <? 32))) (escape_attr (char_to_int sg c)).
Lemma escape_sweep : forallb (fun sg => forallb (escape_check sg) all_bytes) [true; false] = true.
Proof. vm_compute. reflexivity. Qed.
Lemma escape_ok : forall sg c, c < 256 -> read_escape (escape_attr (char_to_int sg c)) = c /\
  Forall (fun x => x <> 60 /\ x <> 62 /\ x <> 38 /\ x <> 34 /\ 32 <= x) (escape_attr (char_to_int sg c)).
Proof.
  intros sg c H. pose proof escape_sweep as E.
  rewrite forallb_forall in E. specialize (E sg).
  assert (S : In sg [true; false]) by (destruct sg; cbn; auto).
  specialize (E S). rewrite forallb_forall in E. specialize (E c (in_all_bytes c H)).
  apply andb_prop in E. destruct E as (E1 & E2). split; [lia|].
  rewrite forallb_forall in E2. apply Forall_forall. intros x I. specialize (E2 x I). lia.
Qed.

(** For the control characters themselves the attribute is exactly 0x and two hexadecimal digits. *)
Definition control (c : N) : Prop := c < 32 /\ c <> 9 /\ c <> 10 /\ c <> 13.
Lemma escape_attr_control : forall sg c, c < 32 ->
  escape_attr (char_to_int sg c) = [48; 120; 48 + c / 16; (if c mod 16 <? 10 then 48 + c mod 16 else 87 + c mod 16)].
Proof.
  intros sg c H.
  assert (I : In c (map N.of_nat (seq 0 32))).
  { apply in_map_iff. exists (N.to_nat c). split; [lia|]. apply in_seq. lia. }
  clear H. revert c I. apply Forall_forall.
  destruct sg; cbv [seq map N.of_nat Pos.of_succ_nat Pos.succ]; repeat constructor.
Qed.

(** ** C07 *)
Lemma firstn_length_le' : forall {A} (l : list A) n, (n <= length l)%nat -> length (firstn n l) = n.
Proof. intros. apply firstn_length_le. assumption. Qed.

Lemma store_spec : forall s i v, (i < length s)%nat ->
  length (store s i v) = length s /\ skipn i (store s i v) = v :: skipn (S i) s.
Proof.
  intros s i v H. unfold store. split.
  - rewrite app_length, firstn_length. cbn [length]. rewrite skipn_length. lia.
  - rewrite skipn_app. rewrite firstn_length_le by lia. rewrite skipn_all2 by (rewrite firstn_length; lia).
    replace (i - i)%nat with O by lia. reflexivity.
Qed.

Lemma dec_value_app : forall l a, fold_left (fun a c => 10 * a + (c - 48)) l a =
  a * 10 ^ N.of_nat (length l) + dec_value l.
Proof.
  induction l as [|c l IH]; intros a.
  - cbn. unfold dec_value. cbn. lia.
  - unfold dec_value. cbn [fold_left]. rewrite !IH.
    change (length (c :: l)) with (S (length l)). rewrite Nat2N.inj_succ, N.pow_succ_r'. lia.
Qed.
Lemma dec_value_cons : forall c l, dec_value (c :: l) = (c - 48) * 10 ^ N.of_nat (length l) + dec_value l.
Proof. intros. unfold dec_value at 1. cbn [fold_left]. rewrite dec_value_app. lia. Qed.

(** running the loop from index [p] with enough room produces a numeral in front of what follows *)
Lemma positoa_loop_ok : forall p fuel s n, (p < length s)%nat -> n < 10 ^ N.of_nat p -> (p < fuel)%nat -> (0 < p)%nat ->
  exists s' p' ds, positoa_loop fuel s p n = Ok (s', p') /\ length s' = length s /\
    skipn p' s' = ds ++ skipn p s /\ decimal ds n.
Proof.
  induction p as [|p IH]; intros fuel s n L N F P; [lia|].
  destruct fuel as [|fuel]; [lia|].
  cbn [positoa_loop].
  set (d := 48 + n mod 10).
  assert (D : 48 <= d <= 57) by (unfold d; pose proof (N.mod_lt n 10); lia).
  destruct (store_spec s p d ltac:(lia)) as (SL & SS).
  destruct (N.eqb_spec (n / 10) 0) as [Z|Z].
  - exists (store s p d), p, [d]. rewrite SS. repeat split; auto; try discriminate.
    + change (dec_value [d]) with (10 * 0 + (d - 48)). apply N.div_small_iff in Z; [|lia]. unfold d. rewrite N.mod_small by assumption. lia.
    + cbn. intros ->. reflexivity.
  - assert (P' : (0 < p)%nat).
    { destruct p; [|lia]. exfalso. apply Z. apply N.div_small. exact N. }
    assert (Hlt : n / 10 < 10 ^ N.of_nat p).
    { apply N.div_lt_upper_bound; [lia|]. rewrite Nat2N.inj_succ, N.pow_succ_r' in N. exact N. }
    destruct (IH fuel (store s p d) (n / 10) ltac:(lia) Hlt ltac:(lia) P') as (s' & p' & ds & E & SL' & SK & DD).
    exists s', p', (ds ++ [d]). rewrite E. split; [reflexivity|]. split; [lia|]. split.
    + rewrite SK, SS, <- app_assoc. reflexivity.
    + destruct DD as (NE & DG & DV & LZ). split; [destruct ds; discriminate|].
      split; [apply Forall_app; split; [assumption|repeat constructor; lia]|].
      split.
      * unfold dec_value. rewrite fold_left_app. cbn [fold_left]. fold (dec_value ds). rewrite DV.
        pose proof (N.div_mod n 10 ltac:(lia)) as DM. unfold d. lia.
      * intros HZ. destruct ds as [|c ds]; [congruence|]. cbn in HZ. specialize (LZ HZ).
        rewrite LZ in DV. cbn in DV. unfold dec_value in DV. cbn in DV. lia.
Qed.

(** the buffer between calls: 16 bytes, the last one NUL *)
Definition pos_buffer (s : bytes) : Prop := length s = 16%nat /\ skipn 15 s = [0].

Lemma cstr_digits : forall ds, Forall (fun c => 48 <= c <= 57) ds -> forall r, cstr (ds ++ 0 :: r) = Ok ds.
Proof.
  induction 1 as [|c ds D _ IH]; intros r; [reflexivity|].
  cbn. destruct (N.eqb_spec c 0); [lia|]. rewrite IH. reflexivity.
Qed.

Lemma pos_limit : 2 ^ 31 <= 10 ^ N.of_nat 15. Proof. vm_compute. discriminate. Qed.

Lemma skipn_skipn_tail : forall {A} (l : list A) p q ds x, skipn p l = ds ++ [x] -> (p <= q)%nat -> length l = S q -> skipn q l = [x].
Proof.
  intros A l p q ds x H LE LL.
  assert (E : l = firstn p l ++ ds ++ [x]) by (rewrite <- H, firstn_skipn; reflexivity).
  assert (PL : length (firstn p l ++ ds) = q).
  { rewrite E in LL. rewrite !app_length in LL. cbn in LL. rewrite app_length. lia. }
  rewrite E, app_assoc. rewrite skipn_app, PL. rewrite skipn_all2 by lia.
  replace (q - q)%nat with O by lia. reflexivity.
Qed.

Lemma positoa_ok : forall s n, pos_buffer s -> n < 2 ^ 31 ->
  exists s' ds, positoa s n = Ok (s', ds) /\ pos_buffer s' /\ decimal ds n.
Proof.
  intros s n (L & T) N. pose proof pos_limit.
  assert (HN : n < 10 ^ N.of_nat 15) by lia.
  destruct (positoa_loop_ok 15 17 s n ltac:(lia) HN ltac:(lia) ltac:(lia)) as (s' & p' & ds & E & SL & SK & D).
  exists s', ds. unfold positoa. change (POS_SIZE - 1)%nat with 15%nat. change (S POS_SIZE) with 17%nat. rewrite E. cbn [obind fst snd].
  rewrite T in SK. rewrite SK, cstr_digits by apply D. cbn [obind].
  split; [reflexivity|]. split; [|assumption]. split; [lia|].
  apply skipn_skipn_tail with (p := p') (ds := ds); [assumption| |lia].
  assert (skipn p' s' <> []) by (rewrite SK; destruct ds; discriminate).
  destruct (Nat.le_gt_cases p' 15); [assumption|]. rewrite skipn_all2 in H0 by lia. congruence.
Qed.

(** numerals are unique *)
Lemma dec_value_bound : forall l, Forall (fun c => 48 <= c <= 57) l -> dec_value l < 10 ^ N.of_nat (length l).
Proof.
  induction 1 as [|c l D _ IH]; [reflexivity|].
  rewrite dec_value_cons. change (length (c :: l)) with (S (length l)). rewrite Nat2N.inj_succ, N.pow_succ_r'. nia.
Qed.

Lemma add_position_ok : forall s pre t, pos_buffer s ->
  p_line t < 2 ^ 31 -> p_col t < 2 ^ 31 -> p_endline t < 2 ^ 31 -> p_endcol t < 2 ^ 31 ->
  exists s' out, add_position s pre t = Ok (s', out) /\ pos_buffer s' /\
    ((p_endline t < p_line t \/ (p_endline t = p_line t /\ p_endcol t < p_col t)) -> out = []) /\
    ((p_line t < p_endline t \/ (p_endline t = p_line t /\ p_col t <= p_endcol t)) ->
      exists l c l' c', decimal l (p_line t) /\ decimal c (p_col t) /\ decimal l' (p_endline t) /\ decimal c' (p_endcol t) /\
      out = txt " " ++ (match pre with [] => [] | _ => pre ++ txt ":" end) ++ txt "start=""" ++ l ++ txt ":" ++ c ++ txt """ " ++
            (match pre with [] => [] | _ => pre ++ txt ":" end) ++ txt "end=""" ++ l' ++ txt ":" ++ c' ++ txt """").
Proof.
  intros s pre t B L C EL EC. unfold add_position.
  destruct ((p_endline t <? p_line t) || ((p_endline t =? p_line t) && (p_endcol t <? p_col t))) eqn:Q.
  - exists s, []. split; [reflexivity|]. split; [assumption|]. split; [reflexivity|]. intros. lia.
  - destruct (positoa_ok s (p_line t) B L) as (s1 & d1 & E1 & B1 & D1).
    destruct (positoa_ok s1 (p_col t) B1 C) as (s2 & d2 & E2 & B2 & D2).
    destruct (positoa_ok s2 (p_endline t) B2 EL) as (s3 & d3 & E3 & B3 & D3).
    destruct (positoa_ok s3 (p_endcol t) B3 EC) as (s4 & d4 & E4 & B4 & D4).
    rewrite E1. cbn [obind fst snd]. rewrite E2. cbn [obind fst snd]. rewrite E3. cbn [obind fst snd].
    rewrite E4. cbn [obind fst snd].
    eexists s4, _. split; [reflexivity|]. split; [assumption|]. split; [intros; lia|]. intros _.
    exists d1, d2, d3, d4. repeat (split; [assumption|]).
    replace (p_endline t <? p_line t) with false by lia.
    destruct pre; cbn [app]; rewrite <- ?app_assoc; cbn; rewrite <- ?app_assoc; reflexivity.
Qed.

(** ** C19 *)
Definition ending (e : eol) : bytes :=
  match e with EOL_AUTO => [10] | EOL_LF => [10] | EOL_CR => [13] | EOL_CRLF => [13; 10] end.
Lemma unparse_loop_acc : forall e s acc, unparse_loop e s acc = acc ++ unparse_loop e s [].
Proof.
  induction s as [|c s IH]; intros acc; cbn; [now rewrite app_nil_r|].
  rewrite IH. rewrite (IH (if negb (c =? 10) then [c] else _)). rewrite app_assoc. reflexivity.
Qed.
Lemma unparse_loop_app : forall e a b acc, unparse_loop e (a ++ b) acc = unparse_loop e b (unparse_loop e a acc).
Proof. induction a as [|c a IH]; intros; cbn; [reflexivity|apply IH]. Qed.
Lemma unparse_loop_plain : forall e l acc, no_byte 10 l -> unparse_loop e l acc = acc ++ l.
Proof.
  intros e l acc H. revert acc. induction H as [|c l N _ IH]; intros acc; cbn; [now rewrite app_nil_r|].
  destruct (N.eqb_spec c 10); [contradiction|]. cbn [negb]. rewrite IH, <- app_assoc. reflexivity.
Qed.
Lemma unparse_loop_line : forall e l acc, no_byte 10 l -> unparse_loop e (l ++ [10]) acc = acc ++ l ++ ending e.
Proof.
  intros e l acc H. rewrite unparse_loop_app, (unparse_loop_plain e l acc H). cbn.
  rewrite <- app_assoc. destruct e; reflexivity.
Qed.
Lemma unparse_lines : forall e src full rest, lines_of src full rest ->
  unparse e src = concat (map (fun l => l ++ ending e) full) ++ rest.
Proof.
  intros e src full rest (-> & F & R).
  assert (G : unparse_loop e (concat (map (fun l => l ++ [10]) full) ++ rest) [] =
              concat (map (fun l => l ++ ending e) full) ++ rest).
  { rewrite unparse_loop_app, (unparse_loop_plain e rest) by assumption. f_equal. clear R.
    induction F as [|l full N _ IH]; [reflexivity|].
    cbn [map concat]. rewrite unparse_loop_app, unparse_loop_line by assumption.
    cbn [app]. rewrite unparse_loop_acc. rewrite IH. reflexivity. }
  destruct e; cbn [unparse]; [reflexivity|exact G|exact G|exact G].
Qed.

Lemma lines_exist : forall src, exists full rest, lines_of src full rest.
Proof.
  induction src as [|c src (full & rest & E & F & R)].
  - exists [], []. repeat split; constructor.
  - destruct (N.eq_dec c 10) as [->|N].
    + exists ([] :: full), rest. cbn. subst src. repeat split; auto; constructor; auto; constructor.
    + destruct full as [|l full].
      * exists [], (c :: rest). cbn in *. subst src. repeat split; auto; constructor; auto.
      * exists ((c :: l) :: full), rest. cbn in *. subst src. apply Forall_cons_iff in F. destruct F as (F1 & F2).
        repeat split; auto; constructor; auto; constructor; auto.
Qed.

Lemma upto_nul_id : forall s, no_byte 0 s -> upto_nul s = s.
Proof. induction 1 as [|c s N _ IH]; cbn; [reflexivity|]. destruct (N.eqb_spec c 0); [contradiction|]. now f_equal. Qed.
Lemma unparse_no_nul : forall e s, no_byte 0 s -> no_byte 0 (unparse e s).
Proof.
  intros e s H. assert (G : no_byte 0 (unparse_loop e s [])).
  { induction H as [|c s N _ IH]; cbn; [constructor|]. rewrite unparse_loop_acc.
    apply Forall_app. split; [|exact IH].
    destruct (negb (c =? 10)); [constructor; [assumption|constructor]|].
    destruct e; repeat (apply Forall_cons; [first [assumption|discriminate]|]); constructor. }
  destruct e; assumption.
Qed.
Lemma unparse_memory_ok : forall e s, no_byte 0 s -> unparse_memory e s = unparse e s.
Proof. intros. unfold unparse_memory. apply upto_nul_id, unparse_no_nul. assumption. Qed.

(** ** C20 *)
Lemma count_byte_app : forall b x y, count_byte b (x ++ y) = (count_byte b x + count_byte b y)%nat.
Proof. intros. unfold count_byte. rewrite filter_app, app_length. reflexivity. Qed.
Lemma count_byte_none : forall b x, no_byte b x -> count_byte b x = 0%nat.
Proof.
  induction 1 as [|c x N _ IH]; [reflexivity|]. unfold count_byte in *. cbn.
  destruct (N.eqb_spec b c); [congruence|assumption].
Qed.
Lemma last_app_ne : forall {A} (x y : list A) d, y <> [] -> last (x ++ y) d = last y d.
Proof.
  induction x as [|a x IH]; intros y d H; [reflexivity|].
  cbn [app]. destruct (x ++ y) eqn:E.
  - destruct x; cbn in E; [contradiction|discriminate].
  - rewrite <- E at 1. change (last (a :: x ++ y) d) with (match x ++ y with [] => a | _ => last (x ++ y) d end).
    rewrite E. rewrite <- E. now apply IH.
Qed.
Lemma last_in : forall {A} (l : list A) d, l <> [] -> In (last l d) l.
Proof.
  induction l as [|a l IH]; intros d H; [congruence|]. destruct l as [|b l]; [left; reflexivity|].
  right. change (last (a :: b :: l) d) with (last (b :: l) d). apply IH. discriminate.
Qed.
Definition final_loc (src : bytes) (n : nat) : nat :=
  match src with [] => n | _ => if last src 0 =? 10 then n else S n end.
Lemma final_loc_count : forall src, line_count src (final_loc src (count_byte 10 src)).
Proof.
  intros src. destruct (lines_exist src) as (full & rest & H). exists full, rest. split; [assumption|].
  destruct H as (-> & F & R). rewrite count_byte_app, (count_byte_none 10 rest R).
  assert (C : count_byte 10 (concat (map (fun l => l ++ [10]) full)) = length full).
  { clear R. induction F as [|l full N _ IH]; [reflexivity|]. cbn [map concat].
    rewrite count_byte_app, count_byte_app, (count_byte_none 10 l N). cbn [length]. rewrite IH. reflexivity. }
  rewrite C. unfold final_loc.
  destruct rest as [|c rest].
  - rewrite !app_nil_r. destruct full as [|l full] using rev_ind; [reflexivity|]. clear IHfull.
    rewrite map_app, concat_app. cbn [map concat]. rewrite app_nil_r.
    rewrite app_assoc. rewrite last_last. cbn [N.eqb Pos.eqb].
    match goal with |- (match ?x with _ => _ end) = _ => destruct x; reflexivity end.
  - rewrite last_app_ne by discriminate.
    assert (L : last (c :: rest) 0 <> 10).
    { pose proof (last_in (c :: rest) 0 ltac:(discriminate)) as I. unfold no_byte in R. rewrite Forall_forall in R. now apply R. }
    destruct (N.eqb_spec (last (c :: rest) 0) 10); [contradiction|].
    destruct (concat (map (fun l => l ++ [10]) full) ++ c :: rest) eqn:E; [destruct (concat (map (fun l => l ++ [10]) full)); discriminate|]. lia.
Qed.
Lemma loc_written_eq : forall src, loc_written src = final_loc src (count_byte 10 src).
Proof. intros []; reflexivity. Qed.
Lemma loc_written_ok : forall src, line_count src (loc_written src).
Proof. intros. rewrite loc_written_eq. apply final_loc_count. Qed.

(** text contributed by the events *)
Definition event_text (e : sax_event) : bytes :=
  match e with Characters t => t | CData t => t | Escape a => [read_escape a] | Markup => [] end.
Definition generated (e : sax_event) : Prop :=
  match e with CData _ => False | Escape a => read_escape a <> 10 | _ => True end.
Lemma collect_all : forall evs s, Forall generated evs ->
  c_src (fold_left collect_event evs s) = c_src s ++ flat_map event_text evs /\
  c_loc (fold_left collect_event evs s) = (c_loc s + count_byte 10 (flat_map event_text evs))%nat.
Proof.
  intros evs s G. revert s. induction G as [|e evs Ge _ IH]; intros s; cbn [fold_left flat_map].
  - rewrite app_nil_r. cbn. unfold count_byte. cbn. split; [reflexivity|lia].
  - destruct (IH (collect_event s e)) as (A & B). rewrite A, B. rewrite count_byte_app, app_assoc.
    destruct e as [t|a|t|]; cbn [collect_event c_src c_loc event_text] in *; try contradiction.
    + split; [reflexivity|lia].
    + split; [reflexivity|]. rewrite (count_byte_none 10 [read_escape a]); [lia|repeat constructor; exact Ge].
    + rewrite app_nil_r. cbn. split; [reflexivity|]. unfold count_byte. cbn. lia.
Qed.
Lemma read_unit_body_src : forall evs, fst (read_unit_body evs) = flat_map event_text evs.
Proof.
  intros evs. unfold read_unit_body. cbn [fst].
  assert (G : forall s, c_src (fold_left collect_event evs s) = c_src s ++ flat_map event_text evs).
  { induction evs as [|e evs IH]; intros s; cbn [fold_left flat_map]; [now rewrite app_nil_r|].
    rewrite IH. destruct e; cbn; rewrite <- ?app_assoc, ?app_nil_r; reflexivity. }
  apply G.
Qed.
Lemma read_loc_ok : forall evs, Forall generated evs ->
  fst (read_unit_body evs) = flat_map event_text evs /\
  line_count (fst (read_unit_body evs)) (snd (read_unit_body evs)) /\
  snd (read_unit_body evs) = loc_written (flat_map event_text evs).
Proof.
  intros evs G. pose proof (read_unit_body_src evs) as E. split; [exact E|].
  destruct (collect_all evs (Collect [] 0) G) as (A & B). cbn in A, B.
  assert (H : snd (read_unit_body evs) = final_loc (flat_map event_text evs) (count_byte 10 (flat_map event_text evs))).
  { unfold read_unit_body. cbn [snd]. rewrite A, B. reflexivity. }
  rewrite H, E. split; [apply final_loc_count|symmetry; apply loc_written_eq].
Qed.
