(** Properties C01-C04 and the reader part of C20: how source bytes reach the lexer. *)
From Verif Require Import Base Reader_Model Reader_Spec Reader_Proofs Reader_Proofs2 Reader_Proofs3.
Local Open Scope N_scope.

(** ** C01: line endings, streaming routes (file, fd, FILE, callback): for every byte-wise encoding,
    every input and every way the reads split it. *)
Theorem C01_eol_stream : forall cv declared f hash s chunks,
  declared <> ""%string -> bytewise cv declared f ->
  delivers s chunks -> is_bytes (concat chunks) -> ~ starts_with BOM_UTF8 (concat chunks) ->
  exists r, Reads cv (open_stream cv declared hash s) (eol_norm (flat_map f (concat chunks))) r.
Proof. exact eol_stream. Qed.
Print Assumptions C01_eol_stream.

(** memory route *)
Theorem C01_eol_memory : forall cv declared f hash input,
  declared <> ""%string -> bytewise cv declared f -> is_bytes input -> ~ starts_with BOM_UTF8 input ->
  exists r0 r, open_memory cv declared hash input = Ok r0 /\ Reads cv r0 (eol_norm (flat_map f input)) r.
Proof. exact eol_memory. Qed.
Print Assumptions C01_eol_memory.

(** the text does not depend on the splitting *)
Theorem C01_split_independent : forall cv declared f hn1 hn2 s1 s2 c1 c2 t1 t2 r1 r2,
  declared <> ""%string -> bytewise cv declared f ->
  delivers s1 c1 -> delivers s2 c2 -> concat c1 = concat c2 ->
  is_bytes (concat c1) -> ~ starts_with BOM_UTF8 (concat c1) ->
  Reads cv (open_stream cv declared hn1 s1) t1 r1 ->
  Reads cv (open_stream cv declared hn2 s2) t2 r2 -> t1 = t2.
Proof. exact chunk_independent. Qed.
Print Assumptions C01_split_independent.

(** no declared encoding and no byte order mark: ISO-8859-1 (both routes); with the line count
    (C20) and the hash (C02) *)
Theorem C01_undeclared_stream : forall hash s chunks,
  delivers s chunks -> is_bytes (concat chunks) -> no_bom (concat chunks) ->
  exists r, Reads glibc (open_stream glibc "" hash s) (eol_norm (flat_map utf8_of_latin1 (concat chunks))) r /\
    (hash = true -> hashed glibc r = concat chunks) /\
    loc glibc r = count_lf (eol_norm (flat_map utf8_of_latin1 (concat chunks))) /\
    lastchar glibc r = last (eol_norm (flat_map utf8_of_latin1 (concat chunks))) 0.
Proof. exact undeclared_stream. Qed.
Print Assumptions C01_undeclared_stream.

Theorem C01_undeclared_memory : forall hash input,
  is_bytes input -> no_bom input ->
  exists r0 r, open_memory glibc "" hash input = Ok r0 /\
    Reads glibc r0 (eol_norm (flat_map utf8_of_latin1 input)) r /\
    (hash = true -> hashed glibc r = input) /\
    loc glibc r = count_lf (eol_norm (flat_map utf8_of_latin1 input)) /\
    lastchar glibc r = last (eol_norm (flat_map utf8_of_latin1 input)) 0.
Proof. exact undeclared_memory. Qed.
Print Assumptions C01_undeclared_memory.

(** non-vacuity: a CR LF pair split between two reads, then a lone CR and a lone LF *)
Example C01_example :
  bytewise glibc "ISO-8859-1" utf8_of_latin1 /\
  delivers [Data [97; 13]; Data [10; 13; 98; 10]; ReadErr] [[97; 13]; [10; 13; 98; 10]] /\
  eol_norm (flat_map utf8_of_latin1 (concat [[97; 13]; [10; 13; 98; 10]])) = [97; 10; 10; 98; 10].
Proof.
  split; [exact latin1_bytewise|]. split; [|reflexivity].
  exists [ReadErr]. split; [reflexivity|]. split; [exact I|]. repeat constructor; discriminate.
Qed.

(** ** C02: hash *)
(** At any time, for any converter (also after conversion errors), exactly the bytes the read
    callback has returned so far have been hashed, once and in order. *)
Theorem C02_hash_any_time : forall cv enc s k r, left_ok cv ->
  calls cv k (open_stream cv enc true s) = Ok r ->
  exists used, s = used ++ src cv r /\ hashed cv r = concat (map data_of used).
Proof. exact hash_any_time. Qed.
Print Assumptions C02_hash_any_time.

(** After reading to the end, the hash covers the source, by both routes and for every splitting. *)
Theorem C02_hash_stream : forall cv declared f hash s chunks,
  delivers s chunks -> has_utf8_bom (hd [] chunks) = false ->
  bytewise cv (choose_encoding declared (hd [] chunks)) f ->
  exists r, Reads cv (open_stream cv declared hash s) (eol_norm (flat_map f (concat chunks))) r /\
    (hash = true -> hashed cv r = concat chunks) /\
    loc cv r = count_lf (eol_norm (flat_map f (concat chunks))) /\
    lastchar cv r = last (eol_norm (flat_map f (concat chunks))) 0.
Proof. exact bytewise_stream. Qed.
Print Assumptions C02_hash_stream.

Theorem C02_hash_memory : forall cv declared f hash input,
  has_utf8_bom input = false ->
  bytewise cv (choose_encoding declared input) f ->
  exists r0 r, open_memory cv declared hash input = Ok r0 /\
    Reads cv r0 (eol_norm (flat_map f input)) r /\
    (hash = true -> hashed cv r = input) /\
    loc cv r = count_lf (eol_norm (flat_map f input)) /\
    lastchar cv r = last (eol_norm (flat_map f input)) 0.
Proof. exact bytewise_memory. Qed.
Print Assumptions C02_hash_memory.

Example C02_example : left_ok glibc /\
  probe glibc 9 (open_stream glibc "" true [Data [97; 13]; Data [10]]) = Some ([97; 10], [97; 13; 10]).
Proof. split; [exact glibc_left_ok|vm_compute; reflexivity]. Qed.

(** ** C03: byte order marks *)
Theorem C03_declared_wins : forall e l, e <> ""%string -> choose_encoding e l = e.
Proof. exact choose_declared. Qed.
Print Assumptions C03_declared_wins.

Theorem C03_detect_partial : forall l, is_bytes l ->
  (starts_with BOM_UTF8 l -> choose_encoding "" l = "UTF-8"%string) /\
  (starts_with BOM_UTF16LE l \/ starts_with BOM_UTF16BE l -> choose_encoding "" l = "UTF-16"%string) /\
  (starts_with BOM_UTF32BE l -> choose_encoding "" l = "UTF-32"%string) /\
  (~ starts_with BOM_UTF8 l -> ~ starts_with BOM_UTF16LE l -> ~ starts_with BOM_UTF16BE l ->
   ~ starts_with BOM_UTF32BE l -> ~ starts_with BOM_UTF32x l -> choose_encoding "" l = "ISO-8859-1"%string).
Proof. exact choose_auto. Qed.
Print Assumptions C03_detect_partial.

(** The UTF-8 mark is not delivered (reads ending between characters; the first read is not exactly
    the mark).  Missing from the full property: the three refuted cases below. *)
Theorem C03_utf8_bom_stream_partial : forall declared hash s chunks,
  declared = "UTF-8"%string \/ (declared = ""%string /\ starts_with BOM_UTF8 (hd [] chunks)) ->
  delivers s chunks -> Forall utf8 chunks -> is_bytes (concat chunks) -> hd [] chunks <> BOM_UTF8 ->
  exists r, Reads glibc (open_stream glibc declared hash s) (eol_norm (strip_bom (concat chunks))) r /\
    (hash = true -> hashed glibc r = concat chunks).
Proof. exact utf8_stream. Qed.
Print Assumptions C03_utf8_bom_stream_partial.

(** memory route: no exception *)
Theorem C03_utf8_bom_memory : forall declared hash input,
  declared = "UTF-8"%string \/ (declared = ""%string /\ starts_with BOM_UTF8 input) ->
  utf8 input -> is_bytes input ->
  exists r0 r, open_memory glibc declared hash input = Ok r0 /\
    Reads glibc r0 (eol_norm (strip_bom input)) r /\ (hash = true -> hashed glibc r = input).
Proof. exact utf8_memory. Qed.
Print Assumptions C03_utf8_bom_memory.

(** A first read that returns exactly the three bytes of the mark makes the reader index past the end
    of its buffer, whatever follows. *)
Theorem C03_bom_only_read_refuted : forall declared hash,
  declared = "UTF-8"%string \/ declared = ""%string ->
  forall rest, Breaks glibc (open_stream glibc declared hash (Data BOM_UTF8 :: rest)).
Proof. exact bom_only_first_read. Qed.
Print Assumptions C03_bom_only_read_refuted.

(** A mark split between the first two reads is not recognised. *)
Theorem C03_bom_split_refuted :
  exists chunks t r, delivers (map Data chunks) chunks /\ concat chunks = BOM_UTF8 ++ [97] /\
    Reads glibc (open_stream glibc "" false (map Data chunks)) t r /\ t <> [97].
Proof. exact bom_split_first_read. Qed.
Print Assumptions C03_bom_split_refuted.

(** With ISO-8859-1 declared, a UTF-8 mark is neither dropped nor kept: half of it is delivered. *)
Theorem C03_latin1_bom_refuted :
  exists t r, Reads glibc (open_stream glibc "ISO-8859-1" false [Data (BOM_UTF8 ++ [97])]) t r /\
    t <> [97] /\ t <> flat_map utf8_of_latin1 (BOM_UTF8 ++ [97]).
Proof. exact latin1_declared_bom. Qed.
Print Assumptions C03_latin1_bom_refuted.

(** The little-endian UTF-32 mark selects UTF-16. *)
Theorem C03_utf32le_refuted : forall l, is_bytes l -> starts_with BOM_UTF32LE l ->
  choose_encoding "" l = "UTF-16"%string.
Proof.
  exact (fun l Hb H => proj1 (proj2 (choose_auto l Hb))
    (or_introl (match H with ex_intro _ t E => ex_intro _ (0 :: 0 :: t) E end))).
Qed.
Print Assumptions C03_utf32le_refuted.

Example C03_example : delivers [Data (BOM_UTF8 ++ [97])] [BOM_UTF8 ++ [97]] /\
  probe glibc 9 (open_stream glibc "" true [Data (BOM_UTF8 ++ [97])]) = Some ([97], BOM_UTF8 ++ [97]).
Proof. split; [apply (delivers_intro [BOM_UTF8 ++ [97]]); reflexivity|vm_compute; reflexivity]. Qed.

(** ** C04: multibyte characters across reads *)
Theorem C04_whole_characters_partial : forall declared hash s chunks,
  declared = "UTF-8"%string \/ (declared = ""%string /\ starts_with BOM_UTF8 (hd [] chunks)) ->
  delivers s chunks -> Forall utf8 chunks -> is_bytes (concat chunks) -> hd [] chunks <> BOM_UTF8 ->
  exists r, Reads glibc (open_stream glibc declared hash s) (eol_norm (strip_bom (concat chunks))) r /\
    (hash = true -> hashed glibc r = concat chunks).
Proof. exact utf8_stream. Qed.
Print Assumptions C04_whole_characters_partial.

(** The full property fails: two splittings of one text are read differently, ... *)
Theorem C04_split_character_refuted :
  exists c1 c2 t1 t2 r1 r2, delivers (map Data c1) c1 /\ delivers (map Data c2) c2 /\
    concat c1 = concat c2 /\ utf8 (concat c1) /\
    Reads glibc (open_stream glibc "UTF-8" false (map Data c1)) t1 r1 /\
    Reads glibc (open_stream glibc "UTF-8" false (map Data c2)) t2 r2 /\ t1 <> t2.
Proof. exact split_char. Qed.
Print Assumptions C04_split_character_refuted.

(** ... an ordinary file with a character across byte 1024 is read as empty, ... *)
Theorem C04_file_refuted :
  exists input r, utf8 input /\ (1024 < N.of_nat (length input)) /\
    Reads glibc (open_stream glibc "UTF-8" false [Data (firstn SRCBUFSIZE input); Data (skipn SRCBUFSIZE input)]) [] r.
Proof. exact split_char_file. Qed.
Print Assumptions C04_file_refuted.

(** ... and in general any first read ending inside a character yields nothing at all. *)
Theorem C04_incomplete_first_read_refuted : forall hash l b q rest,
  utf8 l -> (length (b :: q) < utf8_len b)%nat -> N.of_nat (length (l ++ b :: q)) <= 1024 ->
  exists r, Reads glibc (open_stream glibc "UTF-8" hash (Data (l ++ b :: q) :: rest)) [] r.
Proof. exact incomplete_loses. Qed.
Print Assumptions C04_incomplete_first_read_refuted.
