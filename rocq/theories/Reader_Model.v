(** Model of the character reader that feeds the lexer: src/parser/UTF8CharBuffer.{hpp,cpp}.

    Simplifications:
    - the read callback is a finite list of results; after the list it returns 0 (end of file) for ever;
    - iconv is a record of functions ([converter]); the theorems say which converters they are about;
    - a callback returning more bytes than it was asked for, or a value below -1, is not part of the
      model except that "more than asked for" is [UB] (it overruns the buffer);
    - stderr messages are dropped. *)
From Verif Require Import Base.

Local Open Scope N_scope.

Definition LF : N := 10.
Definition CR : N := 13.

(** UTF8CharBuffer.hpp:105  SRCBUFSIZE *)
Definition SRCBUFSIZE : nat := N.to_nat 1024.

(** Result of one iconv() call (UTF8CharBuffer.cpp:393): whether it returned something other than -1,
    the bytes it wrote, the number of input bytes it left unconverted, its new shift state. *)
Record iconv_result (S : Type) := mkIconv {
  ic_ok : bool; ic_out : bytes; ic_left : nat; ic_state : S }.
Arguments mkIconv {S}. Arguments ic_ok {S}. Arguments ic_out {S}.
Arguments ic_left {S}. Arguments ic_state {S}.

(** The iconv library: iconv_open("UTF-8", name) (None = EINVAL), ICONV_TRIVIALP, iconv(). *)
Record converter := mkConverter {
  cv_state : Type;
  cv_open : string -> option cv_state;
  cv_trivial : string -> bool;
  cv_conv : cv_state -> bytes -> iconv_result cv_state }.

(** One result of the read callback: bytes (none = end of file) or -1. *)
Inductive rd := Data (b : bytes) | ReadErr.

Section Reader.
Variable cv : converter.

(** UTF8CharBuffer.hpp:136-180, data members; [src] stands for the callback, [hashed] for the bytes
    passed to SHA1_Update so far, [conv] for the iconv descriptor. *)
Record reader := mkReader {
  pos : nat; insize : nat; lastcr : bool;
  raw : bytes; inbytesleft : nat; cooked : bytes; cooked_size : nat;
  encoding : string; trivial : bool; firstRead : bool;
  hashneeded : bool; hashed : bytes;
  loc : nat; lastchar : N;
  conv : option (cv_state cv);
  src : list rd; asked : nat }.

(** little-endian value of the first four bytes, missing ones 0: UTF8CharBuffer.cpp:311-313 *)
Definition first4 (l : bytes) : N :=
  nth 0 l 0 + 256 * nth 1 l 0 + 65536 * nth 2 l 0 + 16777216 * nth 3 l 0.

(** UTF8CharBuffer.cpp:316 *)
Definition has_utf8_bom (l : bytes) : bool := N.land (first4 l) 0x00FFFFFF =? 0x00BFBBEF.
(** UTF8CharBuffer.cpp:332 *)
Definition has_utf16_bom (l : bytes) : bool :=
  (N.land (first4 l) 0x0000FFFF =? 0x0000FFFE) || (N.land (first4 l) 0x0000FFFF =? 0x0000FEFF).
(** UTF8CharBuffer.cpp:345 *)
Definition has_utf32_bom (l : bytes) : bool := (first4 l =? 0xFFFE0000) || (first4 l =? 0xFEFF0000).

Definition or_default (e d : string) : string := if String.eqb e "" then d else e.

(** UTF8CharBuffer.cpp:315-358: the encoding chosen on the first read. *)
Definition choose_encoding (declared : string) (l : bytes) : string :=
  let e1 := if has_utf8_bom l then or_default declared "UTF-8" else declared in
  let e2 := if has_utf16_bom l then or_default e1 "UTF-16" else e1 in
  let e3 := if has_utf32_bom l then or_default e2 "UTF-32" else e2 in
  or_default e3 "ISO-8859-1".

(** UTF8CharBuffer.cpp:316-319: bytes skipped at the start of the buffer. *)
Definition bom_skip (l : bytes) : nat := if has_utf8_bom l then 3%nat else 0%nat.

(** UTF8CharBuffer.cpp:378-407: conversion of raw into cooked. The returned nat is readChars' value.
    The output space is cooked_size; iconv fails with E2BIG when its output does not fit. *)
Definition convert (r : reader) (c : cv_state cv) : reader * nat :=
  let res := cv_conv cv c (raw r) in
  let fits := Nat.leb (length (ic_out res)) (cooked_size r) in
  let left := ic_left res in
  if ic_ok res && fits then
    (mkReader (pos r) (insize r) (lastcr r)
       (skipn (length (raw r) - left) (raw r) ++ skipn left (raw r))
       left (ic_out res) (cooked_size r) (encoding r) (trivial r) false
       (hashneeded r) (hashed r) (loc r) (lastchar r) (Some (ic_state res)) (src r) (asked r),
     length (ic_out res))
  else
    (mkReader (pos r) (insize r) (lastcr r) (raw r)
       left (cooked r) (cooked_size r) (encoding r) (trivial r) false
       (hashneeded r) (hashed r) (loc r) (lastchar r) (Some (ic_state res)) (src r) (asked r),
     0%nat).

(** UTF8CharBuffer.cpp:295-409: hashing, first-read set-up and conversion, once raw is filled. *)
Definition process (r : reader) : reader * nat :=
  (* 296-302 hash, 305 pos = 0 *)
  let hashed' := if hashneeded r then hashed r ++ skipn (inbytesleft r) (raw r) else hashed r in
  if firstRead r then
    let enc := choose_encoding (encoding r) (raw r) in
    let p := bom_skip (raw r) in
    match cv_open cv enc with
    | None => (* 361-366: unsupported encoding; firstRead stays set *)
      (mkReader p (insize r) (lastcr r) (raw r) (inbytesleft r) (cooked r) (cooked_size r)
         enc (trivial r) true (hashneeded r) hashed' (loc r) (lastchar r) (conv r) (src r) (asked r), 0%nat)
    | Some c =>
      let r' := mkReader p (insize r) (lastcr r) (raw r) (inbytesleft r) (cooked r) (cooked_size r)
         enc (cv_trivial cv enc) false (hashneeded r) hashed' (loc r) (lastchar r) (Some c) (src r) (asked r) in
      if cv_trivial cv enc then (r', length (raw r)) else convert r' c
    end
  else
    let r' := mkReader 0 (insize r) (lastcr r) (raw r) (inbytesleft r) (cooked r) (cooked_size r)
       (encoding r) (trivial r) false (hashneeded r) hashed' (loc r) (lastchar r) (conv r) (src r) (asked r) in
    if trivial r then (r', length (raw r))
    else match conv r with
         | None => (r', 0%nat)
         | Some c => convert r' c
         end.

(** UTF8CharBuffer.cpp:268-409 readChars. The callback is asked for SRCBUFSIZE - inbytesleft bytes
    and fills the buffer behind the bytes left over; [UB] if it delivers more than asked for. *)
Definition readChars (r : reader) : outcome (reader * nat) :=
  if Nat.eqb (insize r) 0 || Nat.leb (insize r) (pos r) then
    let set_src s := mkReader (pos r) (insize r) (lastcr r) (raw r) (inbytesleft r) (cooked r)
          (cooked_size r) (encoding r) (trivial r) (firstRead r) (hashneeded r) (hashed r)
          (loc r) (lastchar r) (conv r) s (asked r) in
    match src r with
    | [] => Ok (r, 0%nat)
    | ReadErr :: s => Ok (set_src s, 0%nat)
    | Data [] :: s => Ok (set_src s, 0%nat)
    | Data b :: s =>
      if Nat.leb (length b + inbytesleft r) SRCBUFSIZE then
        Ok (process (mkReader (pos r) (insize r) (lastcr r)
          (firstn (inbytesleft r) (raw r) ++ b) (inbytesleft r) (cooked r)
          (cooked_size r) (encoding r) (trivial r) (firstRead r) (hashneeded r) (hashed r)
          (loc r) (lastchar r) (conv r) s (SRCBUFSIZE - inbytesleft r)%nat))
      else UB
    end
  else Ok (process r).

(** what getChar returns: end of file (-1) or a byte *)
Inductive ch := Eof | Char (c : N).

(** UTF8CharBuffer.cpp:425-465 getChar; [again] is the recursive call of line 450. *)
Definition getChar_with (again : reader -> outcome (reader * ch)) (r : reader) : outcome (reader * ch) :=
  let fill :=
    if Nat.eqb (insize r) 0 || Nat.leb (insize r) (pos r) then
      obind (readChars r) (fun '(r1, n) =>
        Ok (mkReader (pos r1) n (lastcr r1) (raw r1) (inbytesleft r1) (cooked r1)
          (cooked_size r1) (encoding r1) (trivial r1) (firstRead r1) (hashneeded r1) (hashed r1)
          (loc r1) (lastchar r1) (conv r1) (src r1) (asked r1), Nat.eqb n 0))
    else Ok (r, false) in
  obind fill (fun '(r1, eof) =>
    if (eof : bool) then Ok (r1, Eof)
    else match nth_error (if trivial r1 then raw r1 else cooked r1) (pos r1) with
         | None => UB   (* line 442: vector index out of range *)
         | Some c =>
           let upd lcr lc l := mkReader (S (pos r1)) (insize r1) lcr (raw r1) (inbytesleft r1) (cooked r1)
              (cooked_size r1) (encoding r1) (trivial r1) (firstRead r1) (hashneeded r1) (hashed r1)
              l lc (conv r1) (src r1) (asked r1) in
           if lastcr r1 && (c =? LF) then again (upd false (lastchar r1) (loc r1))
           else
             let lcr := c =? CR in
             let c' := if lcr then LF else c in
             Ok (upd lcr c' (if c' =? LF then S (loc r1) else loc r1), Char c')
         end).

(** getChar recurses at most once, because the recursive call is made with lastcr = false; a second
    recursion is represented by UB here and the theorems show it does not happen. *)
Definition getChar (r : reader) : outcome (reader * ch) :=
  getChar_with (getChar_with (fun _ => UB)) r.

(** UTF8CharBuffer.hpp:125 getLOC *)
Definition getLOC (r : reader) : nat := if lastchar r =? LF then loc r else S (loc r).

(** UTF8CharBuffer.cpp:112-128, 138-262: construction for the file, fd, FILE and callback routes
    ([enc] is the declared encoding after normalizeEncodingName, "" when none). *)
Definition open_stream (enc : string) (hash : bool) (s : list rd) : reader :=
  mkReader 0 0 false [] 0 [] (SRCBUFSIZE * 4) enc false true hash [] 0 0 None s 0.

(** UTF8CharBuffer.cpp:170-188: construction for the memory route; line 187 reads at once. *)
Definition open_memory (enc : string) (hash : bool) (b : bytes) : outcome reader :=
  obind (readChars (mkReader 0 (length b) false b 0 [] (length b * 4) enc false true hash [] 0 0 None [] 0))
    (fun '(r1, n) =>
      Ok (mkReader (pos r1) n (lastcr r1) (raw r1) (inbytesleft r1) (cooked r1)
          (cooked_size r1) (encoding r1) (trivial r1) (firstRead r1) (hashneeded r1) (hashed r1)
          (loc r1) (lastchar r1) (conv r1) (src r1) (asked r1))).

(** The lexer reads characters until the first end of file; [fuel] bounds the number of calls,
    None is out of fuel. *)
Fixpoint read_all (fuel : nat) (r : reader) : option (outcome (reader * bytes)) :=
  match fuel with
  | O => None
  | S f =>
    match getChar r with
    | UB => Some UB
    | Ok (r1, Eof) => Some (Ok (r1, []))
    | Ok (r1, Char c) =>
      match read_all f r1 with
      | Some (Ok (r2, l)) => Some (Ok (r2, c :: l))
      | other => other
      end
    end
  end.

(** [k] calls of getChar, whatever they return (the state the object is in at any time). *)
Fixpoint calls (k : nat) (r : reader) : outcome reader :=
  match k with
  | O => Ok r
  | S k' => obind (getChar r) (fun '(r1, _) => calls k' r1)
  end.
End Reader.

(** ** Concrete converters *)

(** iconv from ISO-8859-1 to UTF-8: every byte is a code point below 256. *)
Definition latin1_byte (b : N) : bytes := if b <? 128 then [b] else [192 + b / 64; 128 + b mod 64].

(** Number of bytes a UTF-8 lead byte announces; 0 = not a lead byte. *)
Definition utf8_len (b : N) : nat :=
  if b <? 128 then 1%nat else if b <? 194 then 0%nat else if b <? 224 then 2%nat
  else if b <? 240 then 3%nat else if b <? 245 then 4%nat else 0%nat.

Definition is_cont (b : N) : bool := (128 <=? b) && (b <? 192).

(** iconv from UTF-8 to UTF-8 (glibc): copies whole characters; an invalid byte gives EILSEQ and an
    incomplete sequence at the end gives EINVAL, both reported as -1 (iconv(3)).  Simplified: the
    restrictions on the second byte (overlong forms, surrogates) are not checked. *)
Fixpoint utf8_scan (fuel : nat) (l : bytes) : bytes * bytes * bool :=
  match fuel with
  | O => ([], l, false)
  | S f =>
    match l with
    | [] => ([], [], true)
    | b :: _ =>
      let n := utf8_len b in
      if Nat.eqb n 0 then ([], l, false)
      else if Nat.ltb (length l) n then ([], l, false)
      else if forallb is_cont (tl (firstn n l)) then
        let '(out, rest, ok) := utf8_scan f (skipn n l) in
        (firstn n l ++ out, rest, ok)
      else ([], l, false)
    end
  end.

Definition utf8_iconv (l : bytes) : iconv_result unit :=
  let '(out, rest, ok) := utf8_scan (S (length l)) l in mkIconv ok out (length rest) tt.

Definition latin1_iconv (l : bytes) : iconv_result unit := mkIconv true (flat_map latin1_byte l) 0 tt.

(** The two encodings together, as glibc's iconv provides them ([trivial] never set,
    UTF8CharBuffer.cpp:369-373); other names are unsupported in this instance. *)
Inductive enc_state := StLatin1 | StUtf8.
Definition glibc : converter := {|
  cv_state := enc_state;
  cv_open := fun n => if String.eqb n "ISO-8859-1" then Some StLatin1
                      else if String.eqb n "UTF-8" then Some StUtf8 else None;
  cv_trivial := fun _ => false;
  cv_conv := fun s l => match s with
    | StLatin1 => mkIconv true (flat_map latin1_byte l) 0 StLatin1
    | StUtf8 => let r := utf8_iconv l in mkIconv (ic_ok r) (ic_out r) (ic_left r) StUtf8
    end |}.
