(** Specification of what the lexer should see of a source, independent of the reader's code. *)
From Verif Require Import Base.
Local Open Scope N_scope.

(** Every CR LF pair, lone CR and lone LF becomes one LF (10); all else is unchanged. *)
Fixpoint eol_norm (l : bytes) : bytes :=
  match l with
  | [] => []
  | 13 :: t => 10 :: match t with 10 :: t' => eol_norm t' | _ => eol_norm t end
  | c :: t => c :: eol_norm t
  end.

(** number of line feeds *)
Definition count_lf (l : bytes) : nat := count_occ N.eq_dec l 10.

(** The UTF-8 encoding of the ISO-8859-1 character [b]. *)
Definition utf8_of_latin1 (b : N) : bytes :=
  if b <? 128 then [b] else [0xC0 + b / 64; 0x80 + b mod 64].

(** Well-formed UTF-8 text (lead byte followed by the announced number of continuation bytes). *)
Definition cont (b : N) : Prop := 128 <= b < 192.
Inductive utf8 : bytes -> Prop :=
| utf8_nil : utf8 []
| utf8_1 b l : b < 128 -> utf8 l -> utf8 (b :: l)
| utf8_2 b c l : 194 <= b < 224 -> cont c -> utf8 l -> utf8 (b :: c :: l)
| utf8_3 b c d l : 224 <= b < 240 -> cont c -> cont d -> utf8 l -> utf8 (b :: c :: d :: l)
| utf8_4 b c d e l : 240 <= b < 245 -> cont c -> cont d -> cont e -> utf8 l -> utf8 (b :: c :: d :: e :: l).

(** The byte order marks. *)
Definition starts_with (p l : bytes) : Prop := exists t, l = p ++ t.
Definition BOM_UTF8 : bytes := [0xEF; 0xBB; 0xBF].
Definition BOM_UTF16LE : bytes := [0xFF; 0xFE].
Definition BOM_UTF16BE : bytes := [0xFE; 0xFF].
Definition BOM_UTF32BE : bytes := [0; 0; 0xFE; 0xFF].
Definition BOM_UTF32LE : bytes := [0xFF; 0xFE; 0; 0].

(** A well-behaved read callback: it returns the chunks, each non-empty and no longer than the
    1024 bytes asked for, and then end of file or an error. *)
From Verif Require Import Reader_Model.

Definition finished (tail : list rd) : Prop :=
  match tail with [] => True | ReadErr :: _ => True | Data [] :: _ => True | _ => False end.

Definition delivers (s : list rd) (chunks : list bytes) : Prop :=
  exists tail, s = map Data chunks ++ tail /\ finished tail /\
    Forall (fun b => b <> [] /\ N.of_nat (length b) <= 1024) chunks.

Definition is_bytes (l : bytes) : Prop := Forall (fun b => b < 256) l.

(** An encoding in which every byte is one character, [f] giving its UTF-8 form: either iconv reports
    the conversion as trivial (and [f] is the identity), or iconv converts byte by byte in every shift
    state it can get into. *)
Definition bytewise (cv : converter) (enc : string) (f : N -> bytes) : Prop :=
  exists c, cv_open cv enc = Some c /\
  ((cv_trivial cv enc = true /\ (forall b, f b = [b])) \/
   (cv_trivial cv enc = false /\ (forall b, (1 <= length (f b) <= 4)%nat) /\
    exists good : cv_state cv -> Prop, good c /\
    forall s l, good s ->
      ic_ok (cv_conv cv s l) = true /\ ic_left (cv_conv cv s l) = 0%nat /\
      ic_out (cv_conv cv s l) = flat_map f l /\ good (ic_state (cv_conv cv s l)))).

(** Reading to the end of file yields [text] and leaves the reader in state [r']. *)
Definition Reads (cv : converter) (r : reader cv) (text : bytes) (r' : reader cv) : Prop :=
  exists fuel, read_all cv fuel r = Some (Ok (r', text)).
(** Reading runs into undefined behaviour. *)
Definition Breaks (cv : converter) (r : reader cv) : Prop :=
  exists fuel, read_all cv fuel r = Some UB.

(** not a byte order mark of any encoding form, but treated as UTF-32 by the code *)
Definition BOM_UTF32x : bytes := [0; 0; 0xFF; 0xFE].

(** no byte order mark *)
Definition no_bom (l : bytes) : Prop :=
  ~ starts_with BOM_UTF8 l /\ ~ starts_with BOM_UTF16LE l /\ ~ starts_with BOM_UTF16BE l /\
  ~ starts_with BOM_UTF32BE l /\ ~ starts_with BOM_UTF32x l.

(** the bytes a read result carries *)
Definition data_of (x : rd) : bytes := match x with Data b => b | ReadErr => [] end.

(** iconv never reports more unconverted bytes than it was given *)
Definition left_ok (cv : converter) : Prop := forall c l, (ic_left (cv_conv cv c l) <= length l)%nat.

(** without a leading UTF-8 byte order mark *)
Definition strip_bom (l : bytes) : bytes :=
  match l with 0xEF :: 0xBB :: 0xBF :: t => t | _ => l end.
