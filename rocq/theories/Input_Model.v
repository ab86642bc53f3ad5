(** Model of how the command-line client takes its inputs and names its outputs: src/client/src_prefix.cpp,
    srcml_input_src.cpp, src_archive.cpp, src_input_text.cpp, src_input_filelist.cpp, and the names in
    src_input_libarchive.cpp, srcml_consume.cpp, srcml_write.cpp and src_output_filesystem.cpp.
    External: the file system (what stat says is a parameter), libarchive. *)
From Verif Require Import Base Text_Model Writer_Model.

(** * src_prefix.cpp *)
(** 28: PROTOCOL_SEPARATOR. *)
Definition SEPARATOR : bytes := txt "://".
(** 30-32: src_prefix_add_uri with a protocol. *)
Definition add_protocol (protocol resource : bytes) : bytes := protocol ++ SEPARATOR ++ resource.
(** 34-51: src_prefix_add_uri. *)
Definition add_uri (i : bytes) : bytes :=
  match strstr i SEPARATOR with
  | Some _ => i
  | None =>
      if beqb i (txt "/dev/stdin") || beqb i (txt "-") then add_protocol (txt "stdin") (txt "-")
      else match strstr i (txt "http:"), strstr i (txt "https:") with
           | Some _, Some _ => i
           | _, _ => add_protocol (txt "file") i
           end
  end.
(** 53-62: src_prefix_split_uri. *)
Definition split_uri (i : bytes) : bytes * bytes :=
  match strstr i SEPARATOR with
  | None => ([], i)
  | Some p => (firstn p i, skipn (p + length SEPARATOR) i)
  end.
(** 64-72: src_prefix_resource; 74-82: src_prefix_protocol. *)
Definition uri_resource (i : bytes) : bytes :=
  match strstr i SEPARATOR with None => i | Some p => skipn (p + length SEPARATOR) i end.
Definition uri_protocol (i : bytes) : bytes :=
  match strstr i SEPARATOR with None => [] | Some p => firstn p i end.

(** * srcml_input_src.cpp *)
(** src_archive.cpp:31-49, 52-68: the extensions of archives and of compressed files. *)
Definition archive_extensions : list bytes := map txt
  [".7z"; ".ar"; ".cpio"; ".iso"; ".mtree"; ".pax"; ".shar"; ".tar"; ".taz"; ".tb2"; ".tbz"; ".tbz2"; ".tgz"; ".tlz"; ".txz"; ".xar"; ".zip"]%string.
Definition compression_extensions : list bytes := map txt
  [".bz2"; ".gz"; ".lz"; ".lzma"; ".taz"; ".tb2"; ".tbz2"; ".tgz"; ".tlz"; ".txz"; ".xar"; ".xz"; ".z"]%string.
(** src_archive.cpp:108-116. *)
Definition is_archive_ext (e : bytes) : bool := existsb (beqb e) archive_extensions.
Definition is_compressed (e : bytes) : bool := existsb (beqb e) compression_extensions.
(** std::string::rfind of a character. *)
Fixpoint rfind (c : N) (s : bytes) : option nat :=
  match s with
  | [] => None
  | x :: r => match rfind c r with Some i => Some (S i) | None => if (x =? c)%N then Some 0 else None end
  end.
(** 33-40: cur_extension; 42-49: pop_extension. *)
Definition cur_extension (f : bytes) : bytes := match rfind 46 f with None => [] | Some p => skipn p f end.
Definition pop_extension (f : bytes) : bytes := match rfind 46 f with None => f | Some p => firstn p f end.
(** 83-95: the loop over the extensions; it ends because the name gets shorter ([fuel]: its length is
    enough). *)
Fixpoint peel (fuel : nat) (plain : bytes) (cs ars : list bytes) : bytes * bytes * list bytes * list bytes :=
  let e := cur_extension plain in
  match fuel with
  | S fuel =>
      if negb (beqb e []) && (is_compressed e || is_archive_ext e)
      then peel fuel (pop_extension plain) (if is_compressed e then cs ++ [e] else cs) (if is_archive_ext e then ars ++ [e] else ars)
      else (plain, e, cs, ars)
  | 0 => (plain, e, cs, ars)
  end.
Inductive source_kind := KIndeterminate | KSrc | KSrcml.
Record input_src := InputSrc { in_filename : bytes; in_protocol : bytes; in_resource : bytes; in_isdir : bool; in_dirform : bool;
  in_plain : bytes; in_extension : bytes; in_compressions : list bytes; in_archives : list bytes; in_state : source_kind }.
(** 52-113: the constructor; [isdir]: stat says that the resource is a directory.  back() of an empty string
    is [UB]. *)
Definition input_of (isdir : bytes -> bool) (other : bytes) : outcome input_src :=
  let filename := add_uri other in
  let (protocol, resource) := split_uri filename in
  let resource := if negb (beqb protocol (txt "text")) && negb (beqb protocol (txt "filelist")) && negb (beqb protocol (txt "stdin"))
                  then match strchr resource 63 with Some q => firstn q resource | None => resource end else resource in
  let dir := beqb protocol (txt "file") && isdir resource in
  match resource with
  | [] => UB
  | _ =>
      let dirform := (last resource 0 =? 47)%N in
      let '(plain, ext, cs, ars) := if negb dir && negb (beqb protocol (txt "text")) then peel (length resource) resource [] [] else ([], [], [], []) in
      let st := if beqb protocol (txt "text") then KSrc
                else if negb (beqb resource (txt "-")) then (if beqb ext (txt ".xml") || beqb ext (txt ".srcml") then KSrcml else KSrc)
                else KIndeterminate in
      Ok (InputSrc filename protocol resource dir dirform plain ext cs ars st)
  end.

(** * src_input_text.cpp *)
(** 30-47: hex2decimal and isxdigit; 49-51: isodigit. *)
Definition is_hex (c : N) : bool := (((48 <=? c) && (c <=? 57)) || ((65 <=? c) && (c <=? 70)) || ((97 <=? c) && (c <=? 102)))%N.
Definition hex_digit (c : N) : N := (if (c <=? 57) then c - 48 else if (c <=? 70) then c - 55 else c - 87)%N.
Definition is_oct (c : N) : bool := ((48 <=? c) && (c <=? 55))%N.
(** The digits at the front of a text, at most [n]. *)
Fixpoint digits (p : N -> bool) (n : nat) (t : bytes) : bytes :=
  match n, t with S n, c :: r => if p c then c :: digits p n r else [] | _, _ => [] end.
Definition value16 (ds : bytes) : N := fold_left (fun v c => hex_digit c + 16 * v)%N ds 0%N.
Definition value8 (ds : bytes) : N := fold_left (fun v c => (c - 48) + 8 * v)%N ds 0%N.
(** After an escape: the bytes pushed and the text to go on with; or the next unit begins. *)
Inductive escape := Push (b : bytes) (rest : bytes) | NextUnit (rest : bytes).
(** 98-210: the text after the backslash; at the end of the text the next character is read beyond the
    terminator.  push_back takes an int as a char. *)
Definition escape_of (t : bytes) : outcome escape :=
  match t with
  | [] => UB
  | c :: r =>
      if (c =? 110)%N then Ok (Push [10%N] r) else if (c =? 116)%N then Ok (Push [9%N] r)
      else if (c =? 102)%N then Ok (Push [12%N] r) else if (c =? 97)%N then Ok (Push [7%N] r)
      else if (c =? 98)%N then Ok (Push [8%N] r) else if (c =? 101)%N then Ok (Push [27%N] r)
      else if (c =? 114)%N then Ok (Push [13%N] r) else if (c =? 118)%N then Ok (Push [11%N] r)
      else if (c =? 120)%N then
        let ds := digits is_hex 2 r in
        match ds with
        | [] => Ok (Push [92%N; 120%N] r)
        | _ => if (value16 ds =? 0)%N then Ok (NextUnit (skipn (length ds) r)) else Ok (Push [(value16 ds mod 256)%N] (skipn (length ds) r))
        end
      else if is_oct c then
        let '(ds, rest) := if (c =? 48)%N then let ds := digits is_oct 3 r in (ds, skipn (length ds) r)
                           else let ds := digits is_oct 3 t in (ds, skipn (length ds) t) in
        if (value8 ds =? 0)%N then Ok (NextUnit rest) else Ok (Push [(value8 ds mod 256)%N] rest)
      else Ok (Push [92%N; c] r)
  end.
(** 83-216: one request: its buffer, and what remains for the next one. *)
Fixpoint text_request (fuel : nat) (t buffer : bytes) : outcome (bytes * option bytes) :=
  match strchr t 92 with
  | None => Ok (buffer ++ t, None)
  | Some p =>
      match fuel with
      | 0 => UB                                                     (* not reached *)
      | S fuel =>
          obind (escape_of (skipn (S p) t)) (fun e =>
          match e with
          | Push b r => text_request fuel r (buffer ++ firstn p t ++ b)
          | NextUnit r => Ok (buffer ++ firstn p t, Some r)
          end)
      end
  end.
(** 60-224: the buffers of the requests scheduled. *)
Fixpoint text_requests (fuel : nat) (t : bytes) : outcome (list bytes) :=
  obind (text_request (length t) t []) (fun p =>
  match snd p with
  | None => Ok [fst p]
  | Some r => match fuel with 0 => UB | S fuel => obind (text_requests fuel r) (fun l => Ok (fst p :: l)) end
  end).
(** srcml_cli.cpp:212-214 and 60: --text=[t], as far as the requests. *)
Definition input_text (isdir : bytes -> bool) (t : bytes) : outcome (list bytes) :=
  obind (input_of isdir (add_protocol (txt "text") t)) (fun i =>
  let raw := upto_nul (uri_resource (in_resource i)) in text_requests (length raw) raw).

(** * src_input_filelist.cpp *)
Definition is_white (c : N) : bool := existsb (N.eqb c) [32; 10; 13; 9; 12; 11]%N.
Fixpoint drop_white (s : bytes) : bytes := match s with [] => [] | c :: r => if is_white c then drop_white r else s end.
(** 88-92: trim from both ends. *)
Definition trim (s : bytes) : bytes := rev (drop_white (rev (drop_white s))).
(** 79-83: from [line], up to a line end or the last character; what follows. *)
Fixpoint one_line (s : bytes) : bytes * bytes :=
  match s with
  | [] => ([], [])
  | [c] => ([c], [])
  | c :: r => if (c =? 10)%N then ([c], r) else let (a, b) := one_line r in (c :: a, b)
  end.
(** 76-106: the names taken from the buffer from [line] on; the inputs made of them are in that order, and
    processing stops at the first that fails (not modelled). *)
Fixpoint list_names (fuel : nat) (s : bytes) : list bytes :=
  match fuel, s with
  | S fuel, _ :: _ :: _ =>
      let (l, r) := one_line s in
      match trim l with
      | [] => list_names fuel r
      | (c :: _) as n => if (c =? 0)%N || (c =? 35)%N then list_names fuel r else n :: list_names fuel r
      end
  | _, _ => []
  end.
(** 75: an empty buffer has no first and no last element. *)
Definition filelist (buffer : bytes) : outcome (list bytes) :=
  match buffer with [] => UB | _ => Ok (list_names (length buffer) buffer) end.

(** * Names *)
(** srcml_consume.cpp:66-71, src_input_libarchive.cpp:114-119 and 178-183: "./" is removed from the front.
    The dereference of end() of an empty name is taken to read the terminator. *)
Fixpoint clean_name (f : bytes) : bytes :=
  match f with
  | 46%N :: 47%N :: r => clean_name r
  | _ => f
  end.
(** src_input_libarchive.cpp:176-189: the name of a unit from an input that is not an archive; resize to a
    negative size is [UB]. *)
Fixpoint chop (f : bytes) (cs : list bytes) : outcome bytes :=
  match cs with
  | [] => Ok f
  | c :: cs => if length f <? length c then UB else chop (firstn (length f - length c) f) cs
  end.
Definition unit_name (i : input_src) : outcome bytes := chop (clean_name (in_resource i)) (in_compressions i).
(** src_output_filesystem.cpp:31-60: where a unit is written; 44-55: and the directory made for it. *)
Definition output_file (output_dir filename : bytes) : bytes :=
  let prefix := if beqb output_dir (txt ".") || beqb output_dir (txt "./") then [] else output_dir in
  prefix ++ [47%N] ++ filename.
Definition output_path (output_dir filename : bytes) : bytes :=
  let prefix := if beqb output_dir (txt ".") || beqb output_dir (txt "./") then [] else output_dir in
  prefix ++ [47%N] ++ match rfind 47 filename with Some p => firstn p filename | None => [] end.
(** srcml_write.cpp:78-92: with --to-dir, the srcML file of a unit and its directory. *)
Definition unit_file (dir filename : bytes) : bytes := dir ++ [47%N] ++ filename ++ txt ".xml".
Definition unit_path (dir filename : bytes) : bytes :=
  let f := unit_file dir filename in match rfind 47 f with Some p => firstn p f | None => f end.
