(** Model of the text-level functions: escaping, control characters, position numbers, unparsing,
    line counting, srcDiff revisions and unit attributes. *)
From Verif Require Import Base.
Local Open Scope N_scope.

(** * Character data  *)

(** src/parser/srcMLOutput.cpp:441 [strpbrk(str.c_str(), "<>&") == nullptr]: the search looks at the
    C string, i.e. it stops at the first NUL byte (std::string may contain more after it). *)
Fixpoint strpbrk_special (s : bytes) : bool :=
  match s with
  | [] => false
  | c :: t => if c =? 0 then false
              else if (c =? 60) || (c =? 62) || (c =? 38) then true else strpbrk_special t
  end.

(** srcMLOutput.cpp:449-461: the replacement of one character. *)
Definition esc_char (c : N) : bytes :=
  if c =? 60 then txt "&lt;"
  else if c =? 62 then txt "&gt;"
  else if c =? 38 then txt "&amp;"
  else [c].

(** srcMLOutput.cpp:439-466 [processText]: the bytes given to xmlTextWriterWriteRawLen.  The length is
    passed as int: strings of 2^31 bytes and more are outside the model. *)
Definition process_text (s : bytes) : bytes :=
  if strpbrk_special s then flat_map esc_char s else s.

(** * Control characters *)

(** StreamMLParser.hpp:349 [snprintf(outar, 22, "0x%02x", n)]: lower-case hexadecimal digits of the
    value read as unsigned int (32 bits), at least two. [fuel] 8 is enough for 32 bits. *)
Definition hexdigit (d : N) : N := if d <? 10 then 48 + d else 87 + d.
Fixpoint hexdigits (fuel : nat) (n : N) (acc : bytes) : bytes :=
  match fuel with
  | O => acc
  | S f => let acc := hexdigit (n mod 16) :: acc in
           if n / 16 =? 0 then acc else hexdigits f (n / 16) acc
  end.
Definition unsigned32 (z : Z) : N := Z.to_N (z mod 2 ^ 32).
Definition escape_attr (n : Z) : bytes :=
  let h := hexdigits 8 (unsigned32 n) [] in
  let h := if (length h <? 2)%nat then 48 :: h else h in
  firstn 21 (48 :: 120 :: h).

(** StreamMLParser.hpp:347 [int n = LT(1)->getText()[0]]: a char converted to int; whether char is
    signed is the platform's choice. *)
Definition char_to_int (signed : bool) (c : N) : Z :=
  if signed && (128 <=? c) then (Z.of_N c - 256)%Z else Z.of_N c.

(** strtol with base 0 (libc; used at unit_utilities.cpp:166 and sax2_srcsax_handler.cpp:646): optional
    sign, then 0x/0X hexadecimal, leading 0 octal, else decimal; stops at the first other character;
    saturates at the 64-bit long limits.  Leading white space is not modelled (an attribute value
    written by the code has none). *)
Definition digit_val (c : N) : option N :=
  if (48 <=? c) && (c <=? 57) then Some (c - 48)
  else if (97 <=? c) && (c <=? 122) then Some (c - 87)
  else if (65 <=? c) && (c <=? 90) then Some (c - 55)
  else None.
Fixpoint strtol_digits (base : N) (s : bytes) (acc : N) : N :=
  match s with
  | [] => acc
  | c :: t => match digit_val c with
              | Some d => if d <? base then strtol_digits base t (acc * base + d) else acc
              | None => acc
              end
  end.
Definition strtol_abs (s : bytes) : N :=
  match s with
  | 48 :: x :: d :: t =>
      if ((x =? 120) || (x =? 88)) &&
         match digit_val d with Some v => v <? 16 | None => false end
      then strtol_digits 16 (d :: t) 0
      else strtol_digits 8 (x :: d :: t) 0
  | 48 :: t => strtol_digits 8 t 0
  | _ => strtol_digits 10 s 0
  end.
Definition strtol0 (s : bytes) : Z :=
  match s with
  | 45 :: t => Z.max (- 2 ^ 63) (- Z.of_N (strtol_abs t))
  | 43 :: t => Z.min (2 ^ 63 - 1) (Z.of_N (strtol_abs t))
  | _ => Z.min (2 ^ 63 - 1) (Z.of_N (strtol_abs s))
  end.

(** unit_utilities.cpp:164-169 / sax2_srcsax_handler.cpp:643-648: [char value = (int)strtol(..)]: the
    byte appended to the source (conversions reduce modulo 2^32, then modulo 2^8). *)
Definition read_escape (attr : bytes) : N := Z.to_N ((strtol0 attr mod 2 ^ 32) mod 2 ^ 8).

(** * Position attributes *)

(** srcMLOutput.cpp:49-64 [positoa]: digits are written backwards into a 16-byte buffer that keeps its
    content between calls (thread_local), starting below index 15, where the terminating NUL stays.
    A write below the start of the buffer is [UB]. *)
Definition POS_SIZE : nat := 16.
Definition store (s : bytes) (i : nat) (v : N) : bytes := firstn i s ++ v :: skipn (S i) s.
Fixpoint positoa_loop (fuel : nat) (s : bytes) (p : nat) (n : N) : outcome (bytes * nat) :=
  match fuel with
  | O => UB
  | S f => match p with
           | O => UB
           | S p' => let s := store s p' (48 + n mod 10) in
                     if n / 10 =? 0 then Ok (s, p') else positoa_loop f s p' (n / 10)
           end
  end.
(** the C string starting at index [p] of the buffer; running off the end is [UB] *)
Fixpoint cstr (s : bytes) : outcome bytes :=
  match s with
  | [] => UB
  | c :: t => if c =? 0 then Ok [] else obind (cstr t) (fun r => Ok (c :: r))
  end.
Definition positoa (s : bytes) (n : N) : outcome (bytes * bytes) :=
  obind (positoa_loop (S POS_SIZE) s (POS_SIZE - 1) n)
        (fun r => obind (cstr (skipn (snd r) (fst r))) (fun out => Ok (fst r, out))).

(** A token's position: start line/column and end line/column (srcMLToken.hpp). *)
Record position := Position { p_line : N; p_col : N; p_endline : N; p_endcol : N }.

(** srcMLOutput.cpp:496-532 [addPosition]: nothing when the end precedes the start, otherwise the two
    attributes.  [prefix] is the namespace prefix remembered by the thread (thread_local, see
    Thread_Model). *)
Definition add_position (s : bytes) (prefix : bytes) (t : position) : outcome (bytes * bytes) :=
  if (p_endline t <? p_line t) || ((p_endline t =? p_line t) && (p_endcol t <? p_col t)) then Ok (s, [])
  else
    let pre := txt " " ++ prefix ++ match prefix with [] => [] | _ => txt ":" end in
    let startattr := pre ++ txt "start=""" in
    let endattr := pre ++ txt "end=""" in
    obind (positoa s (p_line t)) (fun r1 =>
    obind (positoa (fst r1) (p_col t)) (fun r2 =>
    obind (positoa (fst r2) (p_endline t)) (fun r3 =>
    obind (positoa (fst r3) (p_endcol t)) (fun r4 =>
    let invalid := p_endline t <? p_line t in
    Ok (fst r4, startattr ++ snd r1 ++ txt ":" ++ snd r2 ++ txt """" ++
        endattr ++ (if invalid then txt "INVALID_POS(" else []) ++ snd r3 ++
        (if invalid then txt ")" else []) ++ txt ":" ++ snd r4 ++ txt """"))))).

(** * Unparsing *)

(** libsrcml/srcml.h: SOURCE_OUTPUT_EOL_AUTO/LF/CR/CRLF. *)
Inductive eol := EOL_AUTO | EOL_LF | EOL_CR | EOL_CRLF.

(** srcml_unit.cpp:699-724: the conversion loop, [neol] being the output so far. *)
Fixpoint unparse_loop (e : eol) (src : bytes) (neol : bytes) : bytes :=
  match src with
  | [] => neol
  | c :: t =>
      let add := if negb (c =? 10) then [c]
                 else match e with EOL_LF => [10] | EOL_CR => [13] | EOL_CRLF => [13; 10] | EOL_AUTO => [c] end in
      unparse_loop e t (neol ++ add)
  end.
(** srcml_unit.cpp:699-726: the bytes given to the output buffer (before its character encoder, which is
    libxml2's and not modelled). *)
Definition unparse (e : eol) (src : bytes) : bytes :=
  match e with EOL_AUTO => src | _ => unparse_loop e src [] end.

(** srcml_unit.cpp:769-792 [srcml_unit_unparse_memory]: the size returned is strlen of the buffer. *)
Fixpoint upto_nul (s : bytes) : bytes :=
  match s with [] => [] | c :: t => if c =? 0 then [] else c :: upto_nul t end.
Definition unparse_memory (e : eol) (src : bytes) : bytes := upto_nul (unparse e src).

(** * Line counts *)

Definition count_byte (b : N) (s : bytes) : nat := length (filter (N.eqb b) s).
(** srcml_unit.cpp:1009-1016: line count of a written (parsed) unit from its source. *)
Definition loc_written (src : bytes) : nat :=
  let n := count_byte 10 src in
  match src with
  | [] => n
  | _ => if last src 0 =? 10 then n else S n
  end.

(** SAX events inside a unit that contribute source text: characters (characters_unit,
    sax2_srcsax_handler.cpp:763-812), an escape element (633-648), CDATA (858-885), and events that
    contribute none (other tags, comments). *)
Inductive sax_event := Characters (t : bytes) | Escape (attr : bytes) | CData (t : bytes) | Markup.

(** State of the collecting handler: unitsrc and loc (sax2_srcsax_handler.hpp). *)
Record collect := Collect { c_src : bytes; c_loc : nat }.
Definition collect_event (s : collect) (e : sax_event) : collect :=
  match e with
  | Characters t => Collect (c_src s ++ t) (c_loc s + count_byte 10 t)
  | Escape a => Collect (c_src s ++ [read_escape a]) (c_loc s)
  | CData t => Collect (c_src s ++ t) (c_loc s)
  | Markup => s
  end.
(** srcml_reader_handler.hpp:388 (loc reset at the unit start) .. 450-459 (endUnit): source and line
    count stored in the unit.  Event order is the document's. *)
Definition read_unit_body (evs : list sax_event) : bytes * nat :=
  let s := fold_left collect_event evs (Collect [] 0) in
  (c_src s,
   match c_src s with
   | [] => c_loc s
   | _ => if last (c_src s) 0 =? 10 then c_loc s else S (c_loc s)
   end).

(** * srcDiff revisions *)

Inductive dmode := INSERT | DELETE | COMMON.   (* unit_utilities.cpp:71 *)

(** memchr: the bytes before the first [c] and those from it on *)
Fixpoint memchr (c : N) (s : bytes) : option (bytes * bytes) :=
  match s with
  | [] => None
  | x :: t => if x =? c then Some ([], s)
              else match memchr c t with None => None | Some (a, b) => Some (x :: a, b) end
  end.
Definition strip_pre : bytes -> bytes -> option bytes :=
  fix go (p s : bytes) := match p, s with
  | [], _ => Some s
  | a :: p', b :: s' => if a =? b then go p' s' else None
  | _ :: _, [] => None
  end.

(** unit_utilities.cpp:81-83 *)
Definition inmode (revision : nat) (m : dmode) : bool :=
  match m with COMMON => true | DELETE => Nat.eqb revision 0 | INSERT => Nat.eqb revision 1 end.

(** unit_utilities.cpp:73-121 [extract_revision]: [stack] is the std::stack of modes (top first), [s] the
    bytes from [p] = [lp] to the end of the range.  A missing '>' increments a null pointer and an empty
    stack is popped or read: [UB].  [tag] is the text between '<' and '>' excluded; strncmp never looks
    past the '>' since no keyword contains one. [fuel] bounds the number of tags. *)
Fixpoint extract_loop (fuel : nat) (revision : nat) (text_only : bool) (stack : list dmode)
                      (s : bytes) (news : bytes) : outcome bytes :=
  match fuel with
  | O => UB
  | S f =>
    match memchr 60 s with
    | None => Ok news                       (* no further tag: the text after the last one is dropped *)
    | Some (before, sp) =>
      match stack with
      | [] => UB
      | top :: rest =>
        let im := inmode revision top in
        let news := if im then news ++ before else news in
        match memchr 62 sp with
        | None => UB
        | Some (open_tag, gt) =>
          let tag := tl open_tag in
          let after := tl gt in
          match strip_pre (txt "diff:") tag with
          | Some tstart =>
              let m := match strip_pre (txt "delete") tstart with
                       | Some _ => DELETE
                       | None => match strip_pre (txt "insert") tstart with Some _ => INSERT | None => COMMON end
                       end in
              extract_loop f revision text_only (m :: stack) after news
          | None =>
              match strip_pre (txt "/diff:") tag with
              | Some _ => extract_loop f revision text_only rest after news
              | None =>
                  let news := if im && negb text_only then news ++ open_tag ++ [62] else news in
                  extract_loop f revision text_only stack after news
              end
          end
        end
      end
    end
  end.
Definition extract_revision (s : bytes) (revision : nat) (text_only : bool) : outcome bytes :=
  extract_loop (S (length s)) revision text_only [COMMON] s [].

(** unit_utilities.cpp:198-208 [attribute_revision] (SRCDIFF_REVISION_ORIGINAL = 0) *)
Definition attribute_revision (a : bytes) (revision : nat) : bytes :=
  match memchr 124 a with
  | None => a
  | Some (x, y) => if Nat.eqb revision 0 then x else tl y
  end.

(** * Unit attributes read from XML *)

(** The fields of srcml_unit that unit_update_attributes can set (srcml_types.hpp), strings as byte
    lists; [ua_attributes] is the flat vector name, value, name, value ... *)
Record uattrs := UAttrs {
  ua_timestamp : option bytes; ua_hash : option bytes; ua_language : option bytes;
  ua_revision : option bytes; ua_filename : option bytes; ua_url : option bytes;
  ua_version : option bytes; ua_attributes : list bytes }.

Definition beqb (a b : bytes) : bool := if list_eq_dec N.eq_dec a b then true else false.

(** unit_utilities.cpp:52-65: the update-or-append loop over the flat vector, [i] in steps of two; the
    write to [i+1] past the end is [UB]. *)
Fixpoint update_pairs (v : list bytes) (name value : bytes) : outcome (list bytes) :=
  match v with
  | [] => Ok [name; value]
  | n :: t =>
      if beqb n name
      then match t with [] => UB | _ :: t' => Ok (n :: value :: t') end
      else match t with
           | [] => Ok [n; name; value]       (* i += 2 passes the end *)
           | x :: t' => obind (update_pairs t' name value) (fun r => Ok (n :: x :: r))
           end
  end.

(** unit_utilities.cpp:28-69, one attribute; values passed through c_str() are cut at a NUL, which XML
    cannot contain (not modelled).  [attribute] is the local name: prefixes are dropped (line 33). *)
Definition update_attribute (u : uattrs) (a : bytes * bytes) : outcome uattrs :=
  let (name, value) := a in
  if beqb name (txt "timestamp") then
    Ok (UAttrs (Some value) (ua_hash u) (ua_language u) (ua_revision u) (ua_filename u) (ua_url u) (ua_version u) (ua_attributes u))
  else if beqb name (txt "hash") then
    Ok (UAttrs (ua_timestamp u) (Some value) (ua_language u) (ua_revision u) (ua_filename u) (ua_url u) (ua_version u) (ua_attributes u))
  else if beqb name (txt "language") then
    Ok (UAttrs (ua_timestamp u) (ua_hash u) (Some value) (ua_revision u) (ua_filename u) (ua_url u) (ua_version u) (ua_attributes u))
  else if beqb name (txt "revision") then
    Ok (UAttrs (ua_timestamp u) (ua_hash u) (ua_language u) (Some value) (ua_filename u) (ua_url u) (ua_version u) (ua_attributes u))
  else if beqb name (txt "filename") then
    Ok (UAttrs (ua_timestamp u) (ua_hash u) (ua_language u) (ua_revision u) (Some value) (ua_url u) (ua_version u) (ua_attributes u))
  else if beqb name (txt "url") then
    Ok (UAttrs (ua_timestamp u) (ua_hash u) (ua_language u) (ua_revision u) (ua_filename u) (Some value) (ua_version u) (ua_attributes u))
  else if beqb name (txt "version") then
    Ok (UAttrs (ua_timestamp u) (ua_hash u) (ua_language u) (ua_revision u) (ua_filename u) (ua_url u) (Some value) (ua_attributes u))
  else if beqb name (txt "tabs") || beqb name (txt "options") || beqb name (txt "hash") then Ok u
  else obind (update_pairs (ua_attributes u) name value) (fun v =>
    Ok (UAttrs (ua_timestamp u) (ua_hash u) (ua_language u) (ua_revision u) (ua_filename u) (ua_url u) (ua_version u) v)).

Definition update_attributes (u : uattrs) (l : list (bytes * bytes)) : outcome uattrs :=
  fold_left (fun u a => obind u (fun u => update_attribute u a)) l (Ok u).
