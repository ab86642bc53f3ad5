(** Refutations (concrete witnesses) and non-vacuity cases for the reader. *)
From Verif Require Import Base Reader_Model Reader_Spec Reader_Proofs Reader_Proofs2.
Local Open Scope N_scope.

(** for refutation by a concrete delivery *)
Lemma delivers_intro chunks : forallb (fun b : bytes => negb (Nat.eqb (length b) 0) && (N.of_nat (length b) <=? 1024)) chunks = true ->
  delivers (map Data chunks) chunks.
Proof.
  intros H. exists []. rewrite app_nil_r. split; [reflexivity|]. split; [exact I|].
  apply Forall_forall. intros b Hb. rewrite forallb_forall in H. specialize (H b Hb).
  apply andb_true_iff in H as [H1 H2]. apply negb_true_iff, Nat.eqb_neq in H1. split; [intros ->; apply H1; reflexivity|lia].
Qed.

Lemma bytes_intro l : forallb (fun b => b <? 256) l = true -> is_bytes l.
Proof. intros H. apply Forall_forall. intros x Hx. rewrite forallb_forall in H. specialize (H x Hx). lia. Qed.

Lemma bom_only_first_read declared hn : declared = "UTF-8"%string \/ declared = ""%string ->
  forall rest, Breaks glibc (open_stream glibc declared hn (Data BOM_UTF8 :: rest)).
Proof.
  intros H rest.
  assert (G : probe_ub glibc 1 (open_stream glibc declared hn (Data BOM_UTF8 :: rest)) = true).
  { destruct H as [-> | ->], hn; vm_compute; reflexivity. }
  exact (probe_Breaks _ _ _ G).
Qed.

Lemma bom_split_first_read :
  exists chunks t r, delivers (map Data chunks) chunks /\ concat chunks = BOM_UTF8 ++ [97] /\
    Reads glibc (open_stream glibc "" false (map Data chunks)) t r /\ t <> [97].
Proof.
  exists [[0xEF; 0xBB]; [0xBF; 97]], [0xC3; 0xAF; 0xC2; 0xBB; 0xC2; 0xBF; 97].
  assert (G : probe glibc 20 (open_stream glibc "" false (map Data [[0xEF; 0xBB]; [0xBF; 97]])) =
     Some ([0xC3; 0xAF; 0xC2; 0xBB; 0xC2; 0xBF; 97], [])) by (vm_compute; reflexivity).
  apply probe_Reads in G as (r & G & _). exists r.
  split; [apply delivers_intro; reflexivity|]. split; [reflexivity|]. split; [exact G|discriminate].
Qed.

Lemma latin1_declared_bom :
  exists t r, Reads glibc (open_stream glibc "ISO-8859-1" false [Data (BOM_UTF8 ++ [97])]) t r /\
    t <> [97] /\ t <> flat_map utf8_of_latin1 (BOM_UTF8 ++ [97]).
Proof.
  exists [0xBB; 0xC2; 0xBF; 97].
  assert (G : probe glibc 20 (open_stream glibc "ISO-8859-1" false [Data (BOM_UTF8 ++ [97])]) =
     Some ([0xBB; 0xC2; 0xBF; 97], [])) by (vm_compute; reflexivity).
  apply probe_Reads in G as (r & G & _). exists r. split; [exact G|]. split; discriminate.
Qed.

(** a character split by the second of two reads *)
Lemma split_char :
  exists c1 c2 t1 t2 r1 r2, delivers (map Data c1) c1 /\ delivers (map Data c2) c2 /\
    concat c1 = concat c2 /\ utf8 (concat c1) /\
    Reads glibc (open_stream glibc "UTF-8" false (map Data c1)) t1 r1 /\
    Reads glibc (open_stream glibc "UTF-8" false (map Data c2)) t2 r2 /\ t1 <> t2.
Proof.
  set (c1 := [[97; 0xC3; 0xA9; 98]]). set (c2 := [[97; 0xC3]; [0xA9; 98]]).
  assert (G1 : probe glibc 20 (open_stream glibc "UTF-8" false (map Data c1)) = Some ([97; 0xC3; 0xA9; 98], [])) by (vm_compute; reflexivity).
  assert (G2 : probe glibc 20 (open_stream glibc "UTF-8" false (map Data c2)) = Some ([], [])) by (vm_compute; reflexivity).
  apply probe_Reads in G1 as (r1 & G1 & _). apply probe_Reads in G2 as (r2 & G2 & _).
  exists c1, c2, [97; 0xC3; 0xA9; 98], [], r1, r2.
  split; [apply delivers_intro; reflexivity|]. split; [apply delivers_intro; reflexivity|].
  split; [reflexivity|]. split; [|split; [exact G1|split; [exact G2|discriminate]]].
  cbn. apply utf8_1; [lia|]. apply utf8_2; [lia|unfold cont; lia|]. apply utf8_1; [lia|constructor].
Qed.

(** the same for a regular file read in full 1024-byte reads: nothing at all is delivered *)
Lemma split_char_file :
  exists input r, utf8 input /\ (1024 < N.of_nat (length input)) /\
    Reads glibc (open_stream glibc "UTF-8" false [Data (firstn SRCBUFSIZE input); Data (skipn SRCBUFSIZE input)]) [] r.
Proof.
  set (input := repeat 97 (N.to_nat 1023) ++ [0xC3; 0xA9; 98]).
  assert (G : probe glibc 20 (open_stream glibc "UTF-8" false [Data (firstn SRCBUFSIZE input); Data (skipn SRCBUFSIZE input)]) = Some ([], [])) by (vm_compute; reflexivity).
  apply probe_Reads in G as (r & G & _). exists input, r.
  split; [|split; [reflexivity|exact G]].
  unfold input. clear. induction (N.to_nat 1023) as [|n IH]; cbn [repeat app].
  - apply utf8_2; [lia|unfold cont; lia|]. apply utf8_1; [lia|constructor].
  - apply utf8_1; [lia|exact IH].
Qed.

(** Any incomplete character at the end of a read loses that read and all that follows. *)
Lemma utf8_scan_incomplete l p : utf8 l ->
  forall f, (length l < f)%nat -> p <> [] ->
  (exists b q, p = b :: q /\ (length p < utf8_len b)%nat) ->
  snd (utf8_scan f (l ++ p)) = false.
Proof.
  intros H. induction H as [|b l Hb Hu IH|b c l Hb Hc Hu IH|b c d l Hb Hc Hd Hu IH|b c d e l Hb Hc Hd He Hu IH];
    intros [|f] Hf Hp Hi; cbn [length] in Hf; try lia.
  - destruct Hi as (b & q & -> & Hl). cbn [app utf8_scan].
    destruct (Nat.eqb (utf8_len b) 0); [reflexivity|].
    destruct (Nat.ltb_spec (length (b :: q)) (utf8_len b)); [reflexivity|lia].
  - cbn [app]. rewrite (utf8_scan_step f b 1); [|lens|lia|simpl; lia|reflexivity]. cbn [skipn].
    specialize (IH f ltac:(lia) Hp Hi). destruct (utf8_scan f (l ++ p)) as [[o r] k]. exact IH.
  - cbn [app]. rewrite (utf8_scan_step f b 2); [|lens|lia|simpl; lia|cbn; rewrite (is_cont_true c) by assumption; reflexivity]. cbn [skipn].
    specialize (IH f ltac:(lia) Hp Hi). destruct (utf8_scan f (l ++ p)) as [[o r] k]. exact IH.
  - cbn [app]. rewrite (utf8_scan_step f b 3); [|lens|lia|simpl; lia|cbn; rewrite (is_cont_true c), (is_cont_true d) by assumption; reflexivity]. cbn [skipn].
    specialize (IH f ltac:(lia) Hp Hi). destruct (utf8_scan f (l ++ p)) as [[o r] k]. exact IH.
  - cbn [app]. rewrite (utf8_scan_step f b 4); [|lens|lia|simpl; lia|cbn; rewrite (is_cont_true c), (is_cont_true d), (is_cont_true e) by assumption; reflexivity]. cbn [skipn].
    specialize (IH f ltac:(lia) Hp Hi). destruct (utf8_scan f (l ++ p)) as [[o r] k]. exact IH.
Qed.

Lemma incomplete_loses hn l b q rest : utf8 l -> (length (b :: q) < utf8_len b)%nat ->
  N.of_nat (length (l ++ b :: q)) <= 1024 ->
  exists r, Reads glibc (open_stream glibc "UTF-8" hn (Data (l ++ b :: q) :: rest)) [] r.
Proof.
  intros Hu Hi Hlen. set (chunk := l ++ b :: q) in *.
  assert (Hs : snd (utf8_scan (S (length chunk)) chunk) = false).
  { unfold chunk. apply utf8_scan_incomplete; [exact Hu|rewrite app_length; lia|discriminate|].
    exists b, q. split; [reflexivity|exact Hi]. }
  assert (Hne : chunk <> []) by (unfold chunk; destruct l; discriminate).
  apply SRCBUF_1024 in Hlen.
  eexists. exists 1%nat. cbn [read_all]. unfold getChar, getChar_with at 1, open_stream, readChars.
  cbn [insize pos Nat.eqb orb src]. destruct chunk as [|x xs] eqn:Ec; [congruence|]. rewrite <- Ec in *.
  cbn [inbytesleft]. replace (Nat.leb (length chunk + 0) SRCBUFSIZE) with true by (symmetry; apply Nat.leb_le; lia).
  cbn [firstn app raw]. unfold process. cbn [firstRead encoding raw hashneeded inbytesleft].
  rewrite choose_declared by discriminate. cbn [cv_open glibc String.eqb Ascii.eqb Bool.eqb cv_trivial].
  unfold convert. cbn [cv_conv raw cooked_size].
  assert (E : ic_ok (utf8_iconv chunk) = false).
  { unfold utf8_iconv. destruct (utf8_scan (S (length chunk)) chunk) as [[o rs] k]. exact Hs. }
  cbn. rewrite E. cbn. reflexivity.
Qed.
