From Verif Require Import Base Reader_Model Reader_Spec Reader_Proofs.
Local Open Scope N_scope.

Lemma read_all_mono cv f1 : forall r x f2, read_all cv f1 r = Some x -> (f1 <= f2)%nat -> read_all cv f2 r = Some x.
Proof.
  induction f1 as [|f1 IH]; intros r x f2 H Hle; [discriminate|].
  destruct f2 as [|f2]; [lia|]. cbn [read_all] in *.
  destruct (getChar cv r) as [[r1 [|c]]|]; try exact H.
  destruct (read_all cv f1 r1) as [y|] eqn:E; [|discriminate].
  rewrite (IH r1 y f2 E) by lia. exact H.
Qed.

Lemma Reads_det cv r t1 r1 t2 r2 : Reads cv r t1 r1 -> Reads cv r t2 r2 -> t1 = t2 /\ r1 = r2.
Proof.
  intros [f1 H1] [f2 H2].
  apply (read_all_mono cv f1 r _ (Nat.max f1 f2)) in H1; [|lia].
  apply (read_all_mono cv f2 r _ (Nat.max f1 f2)) in H2; [|lia].
  rewrite H1 in H2. injection H2 as -> ->. split; reflexivity.
Qed.

Lemma Reads_Breaks cv r t r' : Reads cv r t r' -> Breaks cv r -> False.
Proof.
  intros [f1 H1] [f2 H2].
  apply (read_all_mono cv f1 r _ (Nat.max f1 f2)) in H1; [|lia].
  apply (read_all_mono cv f2 r _ (Nat.max f1 f2)) in H2; [|lia].
  rewrite H1 in H2. discriminate.
Qed.

(** ** Byte order marks *)
Lemma first4_split l : is_bytes l ->
  first4 l = nth 0 l 0 + 256 * nth 1 l 0 + 65536 * nth 2 l 0 + 16777216 * nth 3 l 0 /\
  nth 0 l 0 < 256 /\ nth 1 l 0 < 256 /\ nth 2 l 0 < 256 /\ nth 3 l 0 < 256.
Proof.
  intros H. split; [reflexivity|].
  assert (G : forall k, nth k l 0 < 256).
  { intros k. destruct (nth_in_or_default k l 0) as [Hin| ->]; [|lia].
    unfold is_bytes in H. rewrite Forall_forall in H. apply H, Hin. }
  auto.
Qed.

Lemma land_mask x k : N.land x (N.pred (2 ^ k)) = x mod 2 ^ k.
Proof. rewrite <- N.ones_equiv. apply N.land_ones. Qed.

Ltac mods := Zify.zify; Z.to_euclidean_division_equations; lia.

Lemma has_utf8_bom_iff l : is_bytes l -> has_utf8_bom l = true <-> starts_with BOM_UTF8 l.
Proof.
  intros H. unfold has_utf8_bom. rewrite N.eqb_eq.
  change 0x00FFFFFF with (N.pred (2 ^ 24)). rewrite land_mask. change (2 ^ 24) with 16777216.
  destruct (first4_split l H) as (E & B0 & B1 & B2 & B3). rewrite E. clear E. split.
  - intros G.
    assert (nth 0 l 0 = 0xEF /\ nth 1 l 0 = 0xBB /\ nth 2 l 0 = 0xBF) as (G0 & G1 & G2) by mods.
    destruct l as [|a [|b [|c t]]]; simpl in G0, G1, G2; try discriminate.
    subst. exists t. reflexivity.
  - intros [t ->]. cbn [BOM_UTF8 app nth] in *. mods.
Qed.

Lemma has_utf16_bom_iff l : is_bytes l ->
  has_utf16_bom l = true <-> starts_with BOM_UTF16LE l \/ starts_with BOM_UTF16BE l.
Proof.
  intros H. unfold has_utf16_bom. rewrite orb_true_iff, !N.eqb_eq.
  change 0x0000FFFF with (N.pred (2 ^ 16)). rewrite land_mask. change (2 ^ 16) with 65536.
  destruct (first4_split l H) as (E & B0 & B1 & B2 & B3). rewrite E. clear E. split.
  - intros G.
    assert ((nth 0 l 0 = 0xFF /\ nth 1 l 0 = 0xFE) \/ (nth 0 l 0 = 0xFE /\ nth 1 l 0 = 0xFF)) as G' by mods.
    destruct l as [|a [|b t]]; simpl in G'; try (exfalso; intuition congruence).
    destruct G' as [[-> ->]|[-> ->]]; [left|right]; exists t; reflexivity.
  - intros [[t ->]|[t ->]]; cbn [BOM_UTF16LE BOM_UTF16BE app nth] in *; mods.
Qed.


Lemma has_utf32_bom_iff l : is_bytes l ->
  has_utf32_bom l = true <-> starts_with BOM_UTF32BE l \/ starts_with BOM_UTF32x l.
Proof.
  intros H. unfold has_utf32_bom. rewrite orb_true_iff, !N.eqb_eq.
  destruct (first4_split l H) as (E & B0 & B1 & B2 & B3). rewrite E. clear E. split.
  - intros G.
    assert (nth 0 l 0 = 0 /\ nth 1 l 0 = 0 /\ ((nth 2 l 0 = 0xFE /\ nth 3 l 0 = 0xFF) \/ (nth 2 l 0 = 0xFF /\ nth 3 l 0 = 0xFE))) as (G0 & G1 & G2) by mods.
    destruct l as [|a [|b [|c [|d t]]]]; cbn [nth] in G0, G1, G2; try (exfalso; lia).
    subst a b. destruct G2 as [[-> ->]|[-> ->]]; [left|right]; exists t; reflexivity.
  - intros [[t ->]|[t ->]]; cbn [BOM_UTF32BE BOM_UTF32x app nth] in *; lia.
Qed.

Lemma starts_with_prefix p (b rest : bytes) : starts_with p b -> starts_with p (b ++ rest).
Proof. intros [t ->]. exists (t ++ rest). rewrite app_assoc. reflexivity. Qed.

Lemma or_default_id e d : e <> ""%string -> or_default e d = e.
Proof. unfold or_default. intros H. destruct (String.eqb_spec e ""); [contradiction|reflexivity]. Qed.

Lemma choose_declared e l : e <> ""%string -> choose_encoding e l = e.
Proof.
  intros H. unfold choose_encoding.
  destruct (has_utf8_bom l), (has_utf16_bom l), (has_utf32_bom l); rewrite ?(or_default_id e _ H); reflexivity.
Qed.

Lemma choose_auto l : is_bytes l ->
  (starts_with BOM_UTF8 l -> choose_encoding "" l = "UTF-8"%string) /\
  (starts_with BOM_UTF16LE l \/ starts_with BOM_UTF16BE l -> choose_encoding "" l = "UTF-16"%string) /\
  (starts_with BOM_UTF32BE l -> choose_encoding "" l = "UTF-32"%string) /\
  (~ starts_with BOM_UTF8 l -> ~ starts_with BOM_UTF16LE l -> ~ starts_with BOM_UTF16BE l ->
   ~ starts_with BOM_UTF32BE l -> ~ starts_with BOM_UTF32x l -> choose_encoding "" l = "ISO-8859-1"%string).
Proof.
  intros H.
  pose proof (has_utf8_bom_iff l H) as H8. pose proof (has_utf16_bom_iff l H) as H16.
  pose proof (has_utf32_bom_iff l H) as H32.
  assert (X1 : starts_with BOM_UTF8 l -> starts_with BOM_UTF16LE l \/ starts_with BOM_UTF16BE l -> False).
  { intros [t ->] [[u E]|[u E]]; discriminate E. }
  assert (X2 : starts_with BOM_UTF8 l -> starts_with BOM_UTF32BE l \/ starts_with BOM_UTF32x l -> False).
  { intros [t ->] [[u E]|[u E]]; discriminate E. }
  assert (X3 : starts_with BOM_UTF16LE l \/ starts_with BOM_UTF16BE l -> starts_with BOM_UTF32BE l \/ starts_with BOM_UTF32x l -> False).
  { intros [[t ->]|[t ->]] [[u E]|[u E]]; discriminate E. }
  unfold choose_encoding.
  destruct (has_utf8_bom l), (has_utf16_bom l), (has_utf32_bom l); cbn; intuition congruence.
Qed.

(** ** Byte-wise encodings *)
Lemma flat_map_concat {A B} (f : A -> list B) ls : flat_map f (concat ls) = concat (map (flat_map f) ls).
Proof. induction ls as [|l ls IH]; [reflexivity|]. cbn. rewrite flat_map_app, IH. reflexivity. Qed.

Lemma flat_map_single {A} (f : A -> list A) l : (forall b, f b = [b]) -> flat_map f l = l.
Proof. intros H. induction l as [|x l IH]; [reflexivity|]. cbn. rewrite H, IH. reflexivity. Qed.

Lemma flat_map_len (f : N -> bytes) l : (forall b, (1 <= length (f b) <= 4)%nat) ->
  (length l <= length (flat_map f l) <= length l * 4)%nat.
Proof. intros H. induction l as [|x l IH]; [simpl; lia|]. cbn [flat_map length]. rewrite app_length. specialize (H x). lia. Qed.

Lemma bytewise_Converts cv csz f (good : cv_state cv -> Prop) : 
  (forall b, (1 <= length (f b) <= 4)%nat) ->
  (forall s l, good s ->
      ic_ok (cv_conv cv s l) = true /\ ic_left (cv_conv cv s l) = 0%nat /\
      ic_out (cv_conv cv s l) = flat_map f l /\ good (ic_state (cv_conv cv s l))) ->
  forall chunks c, good c -> Forall (fun b => b <> [] /\ (length b * 4 <= csz)%nat) chunks ->
  Converts cv csz c chunks (map (flat_map f) chunks).
Proof.
  intros Hf Hg chunks. induction chunks as [|b bs IH]; intros c Hc Hck; [constructor|].
  apply Forall_cons_iff in Hck as [[Hb Hl] Hck].
  destruct (Hg c b Hc) as (G1 & G2 & G3 & G4).
  pose proof (flat_map_len f b Hf) as Hlen.
  cbn [map]. apply Conv_cons; try assumption.
  - intros E. rewrite E in Hlen. simpl in Hlen. destruct b; [congruence|simpl in Hlen; lia].
  - lia.
  - apply IH; assumption.
Qed.

Lemma bytewise_Source cv declared f csz b bs :
  bytewise cv (choose_encoding declared b) f ->
  has_utf8_bom b = false ->
  Forall (fun b => b <> [] /\ (length b * 4 <= csz)%nat) (b :: bs) ->
  Source cv csz declared (b :: bs) (flat_map f (concat (b :: bs))).
Proof.
  intros (c & Ho & [[Ht Hf]|(Ht & Hf & good & Hg & Hgood)]) Hbom Hck.
  - eapply Src_trivial; try reflexivity; try eassumption.
    + unfold bom_skip. rewrite Hbom. apply Forall_cons_iff in Hck as [[Hb _] _]. destruct b; [congruence|simpl; lia].
    + unfold bom_skip. rewrite Hbom. rewrite flat_map_single by exact Hf. reflexivity.
  - eapply Src_conv; try reflexivity; try eassumption.
    + apply bytewise_Converts with (good := good) (f := f); assumption.
    + unfold bom_skip. rewrite Hbom. apply Forall_cons_iff in Hck as [[Hb _] _]. cbn [map hd].
      pose proof (flat_map_len f b Hf). destruct b; [congruence|simpl in *; lia].
    + unfold bom_skip. rewrite Hbom. cbn [skipn]. apply flat_map_concat.
Qed.

Lemma SRCBUF_1024 (b : bytes) : (N.of_nat (length b) <= 1024) <-> (length b <= SRCBUFSIZE)%nat.
Proof. unfold SRCBUFSIZE. rewrite <- (Nat2N.id (length b)) at 2. lia. Qed.

Lemma delivers_chunks s chunks : delivers s chunks -> source_chunks s chunks.
Proof.
  intros (tail & Hs & Hf & Hck). exists tail. split; [exact Hs|]. split; [exact Hf|].
  eapply Forall_impl; [|exact Hck]. intros b [Hb Hl]. split; [exact Hb|]. apply SRCBUF_1024, Hl.
Qed.

Lemma delivers_x4 chunks : 
  Forall (fun b : bytes => b <> [] /\ N.of_nat (length b) <= 1024) chunks ->
  Forall (fun b : bytes => b <> [] /\ (length b * 4 <= SRCBUFSIZE * 4)%nat) chunks.
Proof.
  intros H. eapply Forall_impl; [|exact H]. intros b [Hb Hl]. split; [exact Hb|].
  apply SRCBUF_1024 in Hl. lia.
Qed.

Lemma empty_stream cv enc hn s : delivers s [] ->
  exists r2, Reads cv (open_stream cv enc hn s) [] r2 /\ hashed cv r2 = [] /\ loc cv r2 = 0%nat /\ lastchar cv r2 = 0.
Proof.
  intros (tail & Hs & Hf & _). simpl in Hs. subst s.
  destruct (ends_read cv (open_stream cv enc hn tail) tail (or_introl eq_refl) eq_refl Hf) as [s' Hr].
  unfold Reads. eexists. split; [exists 1%nat; cbn [read_all]; unfold getChar, getChar_with at 1; rewrite Hr; cbn|]; try reflexivity.
  cbn. auto.
Qed.

(** the common part: any byte-wise encoding *)
Lemma bytewise_stream cv declared f hn s chunks :
  delivers s chunks -> has_utf8_bom (hd [] chunks) = false ->
  bytewise cv (choose_encoding declared (hd [] chunks)) f ->
  exists r2, Reads cv (open_stream cv declared hn s) (eol_norm (flat_map f (concat chunks))) r2 /\
    (hn = true -> hashed cv r2 = concat chunks) /\
    loc cv r2 = count_lf (eol_norm (flat_map f (concat chunks))) /\
    lastchar cv r2 = last (eol_norm (flat_map f (concat chunks))) 0.
Proof.
  intros Hd Hbom Hb. destruct chunks as [|b bs].
  - destruct (empty_stream cv declared hn s Hd) as (r2 & H1 & H2 & H3 & H4). exists r2. cbn. auto.
  - cbn [hd] in *.
    destruct (stream_reads cv declared hn s (b :: bs) (flat_map f (concat (b :: bs)))
       (S (length (flat_map f (concat (b :: bs)))))) as (r2 & G1 & G2 & G3 & G4).
    + apply delivers_chunks; assumption.
    + apply bytewise_Source; try assumption. destruct Hd as (? & _ & _ & H). apply delivers_x4, H.
    + lia.
    + exists r2. split; [eexists; exact G1|]. auto.
Qed.

Lemma bytewise_memory cv declared f hn input :
  has_utf8_bom input = false ->
  bytewise cv (choose_encoding declared input) f ->
  exists r0 r2, open_memory cv declared hn input = Ok r0 /\
    Reads cv r0 (eol_norm (flat_map f input)) r2 /\
    (hn = true -> hashed cv r2 = input) /\
    loc cv r2 = count_lf (eol_norm (flat_map f input)) /\
    lastchar cv r2 = last (eol_norm (flat_map f input)) 0.
Proof.
  intros Hbom Hb. destruct input as [|x l].
  - eexists _, _. split; [reflexivity|]. split; [exists 1%nat; reflexivity|]. cbn. auto.
  - set (b := x :: l) in *.
    destruct (memory_reads cv declared hn b (flat_map f b) (S (length (flat_map f b)))) as (r0 & r2 & G0 & G1 & G2 & G3 & G4).
    + discriminate.
    + rewrite <- (app_nil_r b) at 3. apply bytewise_Source; try assumption.
      constructor; [|constructor]. split; [discriminate|lia].
    + lia.
    + exists r0, r2. split; [exact G0|]. split; [eexists; exact G1|]. auto.
Qed.

(** BOM hypotheses about the whole input carry over to the first chunk *)
Lemma first_chunk_bom p chunks : ~ starts_with p (concat chunks) -> p <> [] -> ~ starts_with p (hd [] chunks).
Proof.
  intros H Hp G. destruct chunks as [|b bs]; cbn in *; [exact (H G)|].
  apply H, starts_with_prefix, G.
Qed.

Lemma is_bytes_first chunks : is_bytes (concat chunks) -> is_bytes (hd [] chunks).
Proof. destruct chunks as [|b bs]; cbn; [auto|]. unfold is_bytes. intros H. apply Forall_app in H. apply H. Qed.

Lemma no_bom_false l : is_bytes l -> ~ starts_with BOM_UTF8 l -> has_utf8_bom l = false.
Proof. intros H G. destruct (has_utf8_bom l) eqn:E; [|reflexivity]. apply has_utf8_bom_iff in E; [contradiction|exact H]. Qed.

Lemma eol_stream cv declared f hn s chunks :
  declared <> ""%string -> bytewise cv declared f ->
  delivers s chunks -> is_bytes (concat chunks) -> ~ starts_with BOM_UTF8 (concat chunks) ->
  exists r2, Reads cv (open_stream cv declared hn s) (eol_norm (flat_map f (concat chunks))) r2.
Proof.
  intros Hd Hb Hs Hby Hbom.
  destruct (bytewise_stream cv declared f hn s chunks Hs) as (r2 & H & _).
  - apply no_bom_false; [apply is_bytes_first, Hby|apply first_chunk_bom; [exact Hbom|discriminate]].
  - rewrite choose_declared; assumption.
  - exists r2. exact H.
Qed.

Lemma eol_memory cv declared f hn input :
  declared <> ""%string -> bytewise cv declared f -> is_bytes input -> ~ starts_with BOM_UTF8 input ->
  exists r0 r2, open_memory cv declared hn input = Ok r0 /\ Reads cv r0 (eol_norm (flat_map f input)) r2.
Proof.
  intros Hd Hb Hby Hbom.
  destruct (bytewise_memory cv declared f hn input) as (r0 & r2 & H0 & H & _).
  - apply no_bom_false; assumption.
  - rewrite choose_declared; assumption.
  - exists r0, r2. split; assumption.
Qed.

(** ** ISO-8859-1 *)
Lemma latin1_bytewise : bytewise glibc "ISO-8859-1" utf8_of_latin1.
Proof.
  exists StLatin1. split; [reflexivity|]. right. split; [reflexivity|]. split.
  - intros b. unfold utf8_of_latin1. destruct (b <? 128); simpl; lia.
  - exists (fun s => s = StLatin1). split; [reflexivity|]. intros s l ->. cbn. auto.
Qed.


Lemma auto_latin1 chunks : is_bytes (concat chunks) -> no_bom (concat chunks) ->
  choose_encoding "" (hd [] chunks) = "ISO-8859-1"%string /\ has_utf8_bom (hd [] chunks) = false.
Proof.
  intros H (H1 & H2 & H3 & H4 & H5). pose proof (is_bytes_first _ H) as Hb.
  split; [|apply no_bom_false; [exact Hb|apply first_chunk_bom; [exact H1|discriminate]]].
  apply (choose_auto _ Hb); apply first_chunk_bom; try assumption; discriminate.
Qed.

Lemma undeclared_stream hn s chunks :
  delivers s chunks -> is_bytes (concat chunks) -> no_bom (concat chunks) ->
  exists r2, Reads glibc (open_stream glibc "" hn s) (eol_norm (flat_map utf8_of_latin1 (concat chunks))) r2 /\
    (hn = true -> hashed glibc r2 = concat chunks) /\
    loc glibc r2 = count_lf (eol_norm (flat_map utf8_of_latin1 (concat chunks))) /\
    lastchar glibc r2 = last (eol_norm (flat_map utf8_of_latin1 (concat chunks))) 0.
Proof.
  intros Hd Hb Hn. destruct (auto_latin1 chunks Hb Hn) as [He Hbom].
  apply bytewise_stream; try assumption. rewrite He. apply latin1_bytewise.
Qed.

Lemma undeclared_memory hn input :
  is_bytes input -> no_bom input ->
  exists r0 r2, open_memory glibc "" hn input = Ok r0 /\
    Reads glibc r0 (eol_norm (flat_map utf8_of_latin1 input)) r2 /\
    (hn = true -> hashed glibc r2 = input) /\
    loc glibc r2 = count_lf (eol_norm (flat_map utf8_of_latin1 input)) /\
    lastchar glibc r2 = last (eol_norm (flat_map utf8_of_latin1 input)) 0.
Proof.
  intros Hb Hn.
  assert (Hc : concat [input] = input) by (cbn; apply app_nil_r).
  destruct (auto_latin1 [input]) as [He Hbom]; rewrite ?Hc; try assumption. cbn [hd] in *.
  apply bytewise_memory; try assumption. rewrite He. apply latin1_bytewise.
Qed.

(** ** Hash: at every moment exactly what the callback returned so far *)


Definition HInv (cv : converter) (s0 : list rd) (r : reader cv) : Prop :=
  (inbytesleft cv r <= length (raw cv r))%nat /\
  (hashneeded cv r = true -> exists used, s0 = used ++ src cv r /\ hashed cv r = concat (map data_of used)).

Lemma HInv_convert cv s0 (r : reader cv) c : left_ok cv -> HInv cv s0 r -> HInv cv s0 (fst (convert cv r c)).
Proof.
  intros HL [H1 H2]. unfold convert. specialize (HL c (raw cv r)).
  destruct (ic_ok _ && _); cbn; split; cbn; try assumption.
  rewrite app_length, !skipn_length. lia.
Qed.

Lemma HInv_process cv s0 (r : reader cv) used : left_ok cv ->
  (inbytesleft cv r <= length (raw cv r))%nat ->
  (hashneeded cv r = true -> s0 = used ++ src cv r /\ 
     hashed cv r ++ skipn (inbytesleft cv r) (raw cv r) = concat (map data_of used)) ->
  HInv cv s0 (fst (process cv r)).
Proof.
  intros HL H1 H2.
  assert (G : forall p enc tr fr lc lch cn, HInv cv s0 (mkReader cv p (insize cv r) (lastcr cv r) (raw cv r) (inbytesleft cv r)
     (cooked cv r) (cooked_size cv r) enc tr fr (hashneeded cv r)
     (if hashneeded cv r then hashed cv r ++ skipn (inbytesleft cv r) (raw cv r) else hashed cv r) lc lch cn (src cv r) (asked cv r))).
  { intros. split; cbn; [exact H1|]. intros Hn. destruct (H2 Hn) as [E1 E2]. exists used. rewrite Hn. auto. }
  unfold process. destruct (firstRead cv r).
  - destruct (cv_open cv _) as [c|]; [|apply G].
    destruct (cv_trivial cv _); [apply G|]. apply HInv_convert; [exact HL|apply G].
  - destruct (trivial cv r); [apply G|]. destruct (conv cv r) as [c|]; [|apply G].
    apply HInv_convert; [exact HL|apply G].
Qed.

Lemma HInv_set_insize cv s0 r n : HInv cv s0 r -> HInv cv s0 (set_insize cv r n).
Proof. intros H. exact H. Qed.

Local Opaque SRCBUFSIZE process.
Lemma HInv_readChars cv s0 (r : reader cv) r1 n : left_ok cv -> 
  insize cv r = 0%nat \/ (insize cv r <= pos cv r)%nat ->
  HInv cv s0 r -> readChars cv r = Ok (r1, n) -> HInv cv s0 r1.
Proof.
  intros HL Hi [H1 H2] Hr. unfold readChars in Hr.
  replace (Nat.eqb (insize cv r) 0 || Nat.leb (insize cv r) (pos cv r)) with true in Hr
    by (symmetry; apply orb_true_iff; destruct Hi; [left; apply Nat.eqb_eq|right; apply Nat.leb_le]; assumption).
  destruct (src cv r) as [|[[|x b]|] s] eqn:Es.
  - injection Hr as <- <-. split; [exact H1|]. rewrite Es. exact H2.
  - injection Hr as <- <-. split; cbn; [exact H1|]. intros Hn. destruct (H2 Hn) as (used & E1 & E2).
    exists (used ++ [Data []]). rewrite <- app_assoc. split; [exact E1|]. rewrite map_app, concat_app. cbn. rewrite app_nil_r. exact E2.
  - destruct (Nat.leb _ _); [|discriminate]. injection Hr as Hr.
    replace r1 with (fst (r1, n)) by reflexivity. rewrite <- Hr.
    assert (Hlen : length (firstn (inbytesleft cv r) (raw cv r)) = inbytesleft cv r) by (rewrite firstn_length; lia).
    destruct (hashneeded cv r) eqn:Hn.
    + destruct (H2 eq_refl) as (used & E1 & E2). apply HInv_process with (used := used ++ [Data (x :: b)]); cbn -[length firstn skipn]; [exact HL| |].
      * rewrite app_length. lia.
      * intros _. rewrite <- app_assoc. split; [exact E1|]. rewrite skipn_app, Hlen, Nat.sub_diag, skipn_all2 by lia.
        rewrite map_app, concat_app. cbn. rewrite app_nil_r, E2. reflexivity.
    + apply HInv_process with (used := []); cbn -[length firstn skipn]; [exact HL| |congruence].
      rewrite app_length. lia.
  - injection Hr as <- <-. split; cbn; [exact H1|]. intros Hn. destruct (H2 Hn) as (used & E1 & E2).
    exists (used ++ [ReadErr]). rewrite <- app_assoc. split; [exact E1|]. rewrite map_app, concat_app. cbn. rewrite app_nil_r. exact E2.
Qed.

Lemma HInv_getChar_with cv s0 again : left_ok cv ->
  (forall r r2 c, HInv cv s0 r -> again r = Ok (r2, c) -> HInv cv s0 r2) ->
  forall r r2 c, HInv cv s0 r -> getChar_with cv again r = Ok (r2, c) -> HInv cv s0 r2.
Proof.
  intros HL Ha r r2 c H Hg. unfold getChar_with in Hg.
  destruct (Nat.eqb (insize cv r) 0 || Nat.leb (insize cv r) (pos cv r)) eqn:E.
  - apply orb_true_iff in E. rewrite Nat.eqb_eq, Nat.leb_le in E.
    destruct (readChars cv r) as [[r1 n]|] eqn:Er; [|discriminate]. cbn in Hg.
    pose proof (HInv_readChars cv s0 r r1 n HL E H Er) as H1.
    destruct (Nat.eqb n 0); [injection Hg as <- _; exact H1|].
    match type of Hg with match ?x with _ => _ end = _ => destruct x as [x0|] end; [|discriminate].
    destruct (_ && _); [apply Ha in Hg; [exact Hg|exact H1]|injection Hg as <- _; exact H1].
  - cbn in Hg.
    match type of Hg with match ?x with _ => _ end = _ => destruct x as [x0|] end; [|discriminate].
    destruct (_ && _); [apply Ha in Hg; [exact Hg|exact H]|injection Hg as <- _; exact H].
Qed.

Lemma HInv_calls cv s0 k : left_ok cv -> forall r r2, HInv cv s0 r -> calls cv k r = Ok r2 -> HInv cv s0 r2.
Proof.
  intros HL. induction k as [|k IH]; intros r r2 H Hc; cbn in Hc.
  - injection Hc as <-. exact H.
  - destruct (getChar cv r) as [[r1 c]|] eqn:E; [|discriminate]. cbn in Hc.
    apply (IH r1); [|exact Hc]. unfold getChar in E.
    eapply HInv_getChar_with; [exact HL| |exact H|exact E].
    intros q q2 d Hq Eq. eapply HInv_getChar_with; [exact HL| |exact Hq|exact Eq]. discriminate.
Qed.

Lemma hash_any_time cv enc s k r : left_ok cv -> calls cv k (open_stream cv enc true s) = Ok r ->
  exists used, s = used ++ src cv r /\ hashed cv r = concat (map data_of used).
Proof.
  intros HL H. destruct (HInv_calls cv s k HL (open_stream cv enc true s) r) as [_ G]; [|exact H|].
  - split; cbn; [lia|]. intros _. exists []. auto.
  - apply G. clear G. 
    assert (Hh : forall k r r2, calls cv k r = Ok r2 -> hashneeded cv r2 = hashneeded cv r).
    { clear. intros k. induction k as [|k IH]; intros r r2 H; cbn in H; [injection H as <-; reflexivity|].
      destruct (getChar cv r) as [[r1 c]|] eqn:E; [|discriminate]. cbn in H. rewrite (IH _ _ H). clear IH H.
      assert (P : forall q, hashneeded cv (fst (process cv q)) = hashneeded cv q).
      { intros q. Local Transparent process. unfold process, convert. destruct (firstRead cv q).
        - destruct (cv_open cv _); [|reflexivity]. destruct (cv_trivial cv _); [reflexivity|]. destruct (ic_ok _ && _); reflexivity.
        - destruct (trivial cv q); [reflexivity|]. destruct (conv cv q); [|reflexivity]. destruct (ic_ok _ && _); reflexivity. }
      assert (R : forall q q1 n, readChars cv q = Ok (q1, n) -> hashneeded cv q1 = hashneeded cv q).
      { intros q q1 n Hq. unfold readChars in Hq. destruct (_ || _).
        - destruct (src cv q) as [|[[|x b]|] t].
          + injection Hq as <- <-; reflexivity.
          + injection Hq as <- <-; reflexivity.
          + destruct (Nat.leb _ _); [|discriminate]. injection Hq as Hq.
            apply (f_equal fst) in Hq. cbn [fst] in Hq. rewrite <- Hq, P. reflexivity.
          + injection Hq as <- <-; reflexivity.
        - injection Hq as Hq. apply (f_equal fst) in Hq. cbn [fst] in Hq. rewrite <- Hq, P. reflexivity. }
      assert (W : forall again, (forall q q2 d, again q = Ok (q2, d) -> hashneeded cv q2 = hashneeded cv q) ->
          forall q q2 d, getChar_with cv again q = Ok (q2, d) -> hashneeded cv q2 = hashneeded cv q).
      { intros again Ha q q2 d Hq. unfold getChar_with in Hq.
        destruct (Nat.eqb (insize cv q) 0 || Nat.leb (insize cv q) (pos cv q)).
        - destruct (readChars cv q) as [[q1 n]|] eqn:Er; [|discriminate]. cbn in Hq. apply R in Er.
          destruct (Nat.eqb n 0); [injection Hq as <- _; exact Er|].
          match type of Hq with match ?x with _ => _ end = _ => destruct x as [x0|] end; [|discriminate].
          destruct (_ && _); [apply Ha in Hq; rewrite Hq; exact Er|injection Hq as <- _; exact Er].
        - cbn in Hq.
          match type of Hq with match ?x with _ => _ end = _ => destruct x as [x0|] end; [|discriminate].
          destruct (_ && _); [apply Ha in Hq; rewrite Hq; reflexivity|injection Hq as <- _; reflexivity]. }
      apply W in E; [exact E|]. apply W. discriminate. }
    rewrite (Hh _ _ _ H). reflexivity.
Qed.

Lemma glibc_left_ok : left_ok glibc.
Proof.
  intros [|] l; cbn; [lia|]. unfold utf8_iconv.
  destruct (utf8_scan (S (length l)) l) as [[o rest] ok] eqn:E. cbn [ic_left].
  assert (G : forall f l o rest ok, utf8_scan f l = (o, rest, ok) -> (length rest <= length l)%nat).
  { clear. induction f as [|f IH]; intros l o rest ok E; cbn [utf8_scan] in E.
    - injection E as _ <- _. lia.
    - destruct l as [|b l]; [injection E as _ <- _; lia|].
      destruct (Nat.eqb (utf8_len b) 0); [injection E as _ <- _; lia|].
      destruct (Nat.ltb _ _); [injection E as _ <- _; lia|].
      destruct (forallb _ _); [|injection E as _ <- _; lia].
      destruct (utf8_scan f (skipn (utf8_len b) (b :: l))) as [[o1 r1] k1] eqn:E1.
      injection E as _ <- _. apply IH in E1. rewrite skipn_length in E1. lia. }
  eapply G, E.
Qed.

(** ** UTF-8 *)
Lemma is_cont_true c : cont c -> is_cont c = true.
Proof. unfold cont, is_cont. intros H. apply andb_true_iff. lia. Qed.

Lemma utf8_scan_step f b n l : utf8_len b = n -> n <> 0%nat -> (n <= length (b :: l))%nat ->
  forallb is_cont (tl (firstn n (b :: l))) = true ->
  utf8_scan (S f) (b :: l) = let '(o, r, k) := utf8_scan f (skipn n (b :: l)) in (firstn n (b :: l) ++ o, r, k).
Proof.
  intros H1 H2 H3 H4. cbn [utf8_scan]. rewrite H1.
  destruct (Nat.eqb_spec n 0); [contradiction|].
  destruct (Nat.ltb_spec (length (b :: l)) n); [lia|]. rewrite H4. reflexivity.
Qed.

Ltac lens := unfold utf8_len; repeat match goal with |- context[?x <? ?y] => destruct (N.ltb_spec x y); try lia end; reflexivity.

Lemma utf8_scan_ok l : utf8 l -> forall f, (length l < f)%nat -> utf8_scan f l = (l, [], true).
Proof.
  intros H. induction H as [|b l Hb Hu IH|b c l Hb Hc Hu IH|b c d l Hb Hc Hd Hu IH|b c d e l Hb Hc Hd He Hu IH];
    intros [|f] Hf; cbn [length] in Hf; try lia.
  - reflexivity.
  - rewrite (utf8_scan_step f b 1); [|lens|lia|simpl; lia|reflexivity]. cbn [skipn firstn].
    rewrite IH by lia. reflexivity.
  - rewrite (utf8_scan_step f b 2); [|lens|lia|simpl; lia|cbn; rewrite (is_cont_true c) by assumption; reflexivity]. cbn [skipn firstn].
    rewrite IH by lia. reflexivity.
  - rewrite (utf8_scan_step f b 3); [|lens|lia|simpl; lia|cbn; rewrite (is_cont_true c), (is_cont_true d) by assumption; reflexivity]. cbn [skipn firstn].
    rewrite IH by lia. reflexivity.
  - rewrite (utf8_scan_step f b 4); [|lens|lia|simpl; lia|cbn; rewrite (is_cont_true c), (is_cont_true d), (is_cont_true e) by assumption; reflexivity]. cbn [skipn firstn].
    rewrite IH by lia. reflexivity.
Qed.

Lemma utf8_Converts csz chunks : Forall utf8 chunks -> 
  Forall (fun b : bytes => b <> [] /\ (length b <= csz)%nat) chunks ->
  Converts glibc csz StUtf8 chunks chunks.
Proof.
  induction chunks as [|b bs IH]; intros Hu Hc; [constructor|].
  apply Forall_cons_iff in Hu as [Hb Hu]. apply Forall_cons_iff in Hc as [[Hn Hl] Hc].
  assert (E : utf8_iconv b = mkIconv true b 0 tt).
  { unfold utf8_iconv. rewrite utf8_scan_ok by (try assumption; lia). reflexivity. }
  apply Conv_cons; cbn [cv_conv glibc]; rewrite ?E; cbn; auto.
Qed.

(** UTF-8 read: every chunk a whole number of characters *)
Lemma utf8_Source csz declared b bs : 
  choose_encoding declared b = "UTF-8"%string -> Forall utf8 (b :: bs) ->
  Forall (fun b : bytes => b <> [] /\ (length b <= csz)%nat) (b :: bs) ->
  (bom_skip b < length b)%nat ->
  Source glibc csz declared (b :: bs) (skipn (bom_skip b) (concat (b :: bs))).
Proof.
  intros He Hu Hc Hb. eapply Src_conv; try reflexivity; rewrite ?He; try reflexivity.
  - apply utf8_Converts; assumption.
  - exact Hb.
Qed.


Lemma strip_bom_skip l : is_bytes l -> strip_bom l = skipn (bom_skip l) l.
Proof.
  intros H. unfold bom_skip. destruct (has_utf8_bom l) eqn:E.
  - apply has_utf8_bom_iff in E; [|exact H]. destruct E as [t ->]. reflexivity.
  - unfold strip_bom.
    assert (~ starts_with BOM_UTF8 l) as N by (intros G; apply has_utf8_bom_iff in G; congruence).
    destruct l as [|a [|b [|c t]]]; cbn [skipn]; try reflexivity.
    all: repeat match goal with |- match ?x with _ => _ end = _ => destruct x; try reflexivity end.
    exfalso. apply N. exists t. reflexivity.
Qed.

Lemma bom_whole_chunk b bs : utf8 b -> b <> [] -> starts_with BOM_UTF8 (b ++ concat bs) -> starts_with BOM_UTF8 b.
Proof.
  intros Hu Hn [t E]. cbn in E.
  inversion Hu as [|x l Hx Hl|x c l Hx|x c d l Hx|x c d e l Hx]; subst; cbn in E.
  - congruence.
  - injection E as -> _. lia.
  - injection E as -> _. lia.
  - injection E as -> -> -> _. exists l. reflexivity.
  - injection E as -> _. lia.
Qed.

Lemma strip_bom_app b rest : is_bytes (b ++ rest) ->
  (starts_with BOM_UTF8 (b ++ rest) -> starts_with BOM_UTF8 b) ->
  skipn (bom_skip b) (b ++ rest) = strip_bom (b ++ rest).
Proof.
  intros Hb H. rewrite strip_bom_skip by exact Hb.
  assert (Hb1 : is_bytes b) by (unfold is_bytes in *; apply Forall_app in Hb; apply Hb).
  f_equal. unfold bom_skip.
  destruct (has_utf8_bom b) eqn:E1, (has_utf8_bom (b ++ rest)) eqn:E2; try reflexivity; exfalso.
  - apply has_utf8_bom_iff in E1; [|exact Hb1]. apply (starts_with_prefix _ _ rest) in E1.
    apply has_utf8_bom_iff in E1; [congruence|exact Hb].
  - apply has_utf8_bom_iff in E2; [|exact Hb]. apply H in E2. apply has_utf8_bom_iff in E2; [congruence|exact Hb1].
Qed.

Lemma utf8_stream declared hn s chunks :
  declared = "UTF-8"%string \/ (declared = ""%string /\ starts_with BOM_UTF8 (hd [] chunks)) ->
  delivers s chunks -> Forall utf8 chunks -> is_bytes (concat chunks) -> hd [] chunks <> BOM_UTF8 ->
  exists r2, Reads glibc (open_stream glibc declared hn s) (eol_norm (strip_bom (concat chunks))) r2 /\
    (hn = true -> hashed glibc r2 = concat chunks).
Proof.
  intros Hd Hs Hu Hb Hnb. destruct chunks as [|b bs].
  - destruct (empty_stream glibc declared hn s Hs) as (r2 & H1 & H2 & _). exists r2. cbn. auto.
  - cbn [hd] in *. pose proof Hs as (tail & _ & _ & Hck).
    pose proof Hck as Hck'. apply Forall_cons_iff in Hck' as [[Hbne _] _].
    pose proof Hu as Hu'. apply Forall_cons_iff in Hu' as [Hub _].
    assert (Hb1 : is_bytes b) by (apply (is_bytes_first (b :: bs)); exact Hb).
    assert (Hskip : (bom_skip b < length b)%nat).
    { unfold bom_skip. destruct (has_utf8_bom b) eqn:E.
      - apply has_utf8_bom_iff in E; [|exact Hb1]. destruct E as [t ->].
        destruct t; [rewrite app_nil_r in Hnb; congruence|cbn; lia].
      - destruct b; [congruence|simpl; lia]. }
    assert (He : choose_encoding declared b = "UTF-8"%string).
    { destruct Hd as [->|[-> HB]]; [apply choose_declared; discriminate|]. apply (choose_auto b Hb1), HB. }
    destruct (stream_reads glibc declared hn s (b :: bs) (skipn (bom_skip b) (concat (b :: bs)))
       (S (length (skipn (bom_skip b) (concat (b :: bs)))))) as (r2 & G1 & G2 & _).
    + apply delivers_chunks; assumption.
    + apply utf8_Source; try assumption.
      eapply Forall_impl; [|exact (delivers_x4 _ Hck)]. cbn beta. intros x [Hx1 Hx2]. split; [exact Hx1|lia].
    + lia.
    + exists r2. cbn [concat] in *. rewrite strip_bom_app in G1; [|exact Hb|].
      * split; [eexists; exact G1|exact G2].
      * apply bom_whole_chunk; assumption.
Qed.

(** Run the model and observe only text and hashed bytes ([None]: out of fuel or UB). *)
Definition probe cv fuel (r : reader cv) : option (bytes * bytes) :=
  match read_all cv fuel r with Some (Ok (r2, t)) => Some (t, hashed cv r2) | _ => None end.
Definition probe_mem cv fuel enc hn b : option (bytes * bytes) :=
  match open_memory cv enc hn b with Ok r => probe cv fuel r | UB => None end.
Definition probe_ub cv fuel (r : reader cv) : bool :=
  match read_all cv fuel r with Some UB => true | _ => false end.

Lemma probe_Reads cv fuel r t h : probe cv fuel r = Some (t, h) -> exists r2, Reads cv r t r2 /\ hashed cv r2 = h.
Proof.
  unfold probe. destruct (read_all cv fuel r) as [[[r2 t2]|]|] eqn:E; try discriminate.
  intros H. injection H as <- <-. exists r2. split; [exists fuel; exact E|reflexivity].
Qed.

Lemma probe_mem_Reads cv fuel enc hn b t h : probe_mem cv fuel enc hn b = Some (t, h) ->
  exists r0 r2, open_memory cv enc hn b = Ok r0 /\ Reads cv r0 t r2 /\ hashed cv r2 = h.
Proof.
  unfold probe_mem. destruct (open_memory cv enc hn b) as [r0|]; [|discriminate].
  intros H. apply probe_Reads in H as (r2 & H1 & H2). exists r0, r2. auto.
Qed.

Lemma probe_Breaks cv fuel r : probe_ub cv fuel r = true -> Breaks cv r.
Proof.
  unfold probe_ub. destruct (read_all cv fuel r) as [[[r2 t2]|]|] eqn:E; try discriminate.
  intros _. exists fuel. exact E.
Qed.

Lemma utf8_memory_bom declared hn :
  declared = "UTF-8"%string \/ declared = ""%string ->
  exists r0 r2, open_memory glibc declared hn BOM_UTF8 = Ok r0 /\
    Reads glibc r0 [] r2 /\ (hn = true -> hashed glibc r2 = BOM_UTF8).
Proof.
  intros H.
  assert (G : probe_mem glibc 2 declared hn BOM_UTF8 = Some ([], if hn then BOM_UTF8 else [])).
  { destruct H as [-> | ->], hn; vm_compute; reflexivity. }
  apply probe_mem_Reads in G as (r0 & r2 & G0 & G1 & G2). exists r0, r2. repeat split; try assumption.
  intros ->. exact G2.
Qed.

Lemma utf8_memory declared hn input :
  declared = "UTF-8"%string \/ (declared = ""%string /\ starts_with BOM_UTF8 input) ->
  utf8 input -> is_bytes input -> 
  exists r0 r2, open_memory glibc declared hn input = Ok r0 /\
    Reads glibc r0 (eol_norm (strip_bom input)) r2 /\ (hn = true -> hashed glibc r2 = input).
Proof.
  intros Hd Hu Hb. destruct input as [|x l] eqn:Ei.
  - eexists _, _. split; [reflexivity|]. split; [exists 1%nat; reflexivity|]. cbn. auto.
  - rewrite <- Ei in *. assert (Hne : input <> []) by congruence. clear x l Ei.
    assert (He : choose_encoding declared input = "UTF-8"%string).
    { destruct Hd as [->|[-> HB]]; [apply choose_declared; discriminate|]. apply (choose_auto input Hb), HB. }
    destruct (list_eq_dec N.eq_dec input BOM_UTF8) as [->|Hnb].
    + apply utf8_memory_bom. tauto.
    + assert (Hskip : (bom_skip input < length input)%nat).
      { unfold bom_skip. destruct (has_utf8_bom input) eqn:E.
        - apply has_utf8_bom_iff in E; [|exact Hb]. destruct E as [t ->].
          destruct t; [rewrite app_nil_r in Hnb; congruence|cbn; lia].
        - destruct input; [congruence|simpl; lia]. }
      destruct (memory_reads glibc declared hn input (strip_bom input) (S (length (strip_bom input)))) as (r0 & r2 & G0 & G1 & G2 & _); [exact Hne| |lia|].
      * rewrite strip_bom_skip by exact Hb.
        rewrite <- (app_nil_r input) at 4. apply utf8_Source; try assumption; constructor; try constructor; try assumption; lia.
      * exists r0, r2. split; [exact G0|]. split; [eexists; exact G1|exact G2].
Qed.

(** the lines the reader counts *)
Lemma getLOC_val cv (r : reader cv) l :
  loc cv r = count_lf l -> lastchar cv r = last l 0 ->
  getLOC cv r = if last l 0 =? 10 then count_lf l else S (count_lf l).
Proof. intros H1 H2. unfold getLOC. rewrite H1, H2. reflexivity. Qed.

(** two ways of delivering the same input give the same text *)
Lemma chunk_independent cv declared f hn1 hn2 s1 s2 c1 c2 t1 t2 r1 r2 :
  declared <> ""%string -> bytewise cv declared f ->
  delivers s1 c1 -> delivers s2 c2 -> concat c1 = concat c2 ->
  is_bytes (concat c1) -> ~ starts_with BOM_UTF8 (concat c1) ->
  Reads cv (open_stream cv declared hn1 s1) t1 r1 ->
  Reads cv (open_stream cv declared hn2 s2) t2 r2 -> t1 = t2.
Proof.
  intros Hd Hb H1 H2 He Hby Hbom G1 G2.
  destruct (eol_stream cv declared f hn1 s1 c1 Hd Hb H1 Hby Hbom) as [q1 Q1].
  rewrite He in Hby, Hbom.
  destruct (eol_stream cv declared f hn2 s2 c2 Hd Hb H2 Hby Hbom) as [q2 Q2].
  rewrite He in Q1.
  destruct (Reads_det _ _ _ _ _ _ G1 Q1) as [-> _]. destruct (Reads_det _ _ _ _ _ _ G2 Q2) as [-> _]. reflexivity.
Qed.
