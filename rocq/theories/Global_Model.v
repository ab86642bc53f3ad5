(** Model of the convenience function srcml() and of the global settings it uses (libsrcml.cpp:75-560). *)
From Verif Require Import Base Text_Model Api_Model Writer_Model Archive_Model Reuse_Model Create_Model Handoff_Model Sax_Model.
Local Open Scope N_scope.

(** ** Global settings *)
(** libsrcml.cpp:75-88: global_archive and global_unit, and the error_string of global_archive. The constructor of the archive fills its registry
    once (language_extension_registry.cpp:31-53); srcml_archive_create, not called here, fills it again. global_archive is never opened. *)
Record globals := Globals { g_archive : archive; g_unit : usettings; g_error : bytes }.
Definition initial : globals := Globals (with_extensions archive_create standard_extensions) unit_create [].
(** the global setters *)
Inductive gcall :=
| GAttr (k : sattr) (v : option bytes)             (* srcml_set_src_encoding, _xml_encoding, _language, _url, _version *)
| GFilename (v : option bytes) | GTimestamp (v : option bytes) | GEol (e : N)
| GOptions (o : N) | GEnable (o : N) | GDisable (o : N) | GTabstop (n : N)
| GExtension (ext lang : option bytes) | GNamespace (prefix uri : option bytes)
| GInstruction (target data : option bytes) | GRevision (n : N).
Definition on_archive (g : globals) (r : status * archive) : status * globals := (fst r, Globals (snd r) (g_unit g) (g_error g)).
Definition on_unit (g : globals) (r : status * usettings) : status * globals := (fst r, Globals (g_archive g) (snd r) (g_error g)).
(** libsrcml.cpp:270-460 *)
Definition gstep (g : globals) (c : gcall) : outcome (status * globals) :=
  match c with
  | GAttr k v => Ok (on_archive g (Api_Model.step (g_archive g) (SetAttr k v)))
  | GFilename v => Ok (on_unit g (Api_Model.ustep (g_unit g) (USet UFilename v)))
  | GTimestamp v => Ok (on_unit g (Api_Model.ustep (g_unit g) (USet UTimestamp v)))
  | GEol e => Ok (on_unit g (Api_Model.ustep (g_unit g) (USetEol e)))
  | GOptions o => Ok (on_archive g (Api_Model.step (g_archive g) (SetOptions o)))
  | GEnable o => Ok (on_archive g (Api_Model.step (g_archive g) (EnableOption o)))
  | GDisable o => Ok (on_archive g (Api_Model.step (g_archive g) (DisableOption o)))
  | GTabstop n => Ok (on_archive g (Api_Model.step (g_archive g) (SetTabstop n)))
  | GExtension e l => Ok (on_archive g (Api_Model.step (g_archive g) (RegisterExtension e l)))
  | GNamespace p u => Ok (on_archive g (Api_Model.step (g_archive g) (RegisterNamespace p u)))
  | GInstruction t d => obind (set_processing_instruction (g_archive g) t d) (fun r => Ok (on_archive g r))
  | GRevision n => Ok (on_archive g (Api_Model.step (g_archive g) (SetRevision n)))
  end.
Fixpoint grun (g : globals) (h : list gcall) : outcome (list status * globals) :=
  match h with
  | [] => Ok ([], g)
  | c :: h => obind (gstep g c) (fun r => obind (grun (snd r) h) (fun q => Ok (fst r :: fst q, snd q)))
  end.

(** ** srcml() *)
(** The world around a call: the parser and the encodings ([environment], Reuse_Model.v); the contents of the files that can be opened for reading;
    the files that can be created; what reading one unit from a file gives, [None] if it cannot be opened (C27, C39, C44, C59: [result]);
    the character encoders of libxml2. *)
Record system := System {
  s_env : environment; s_file : bytes -> option bytes; s_creates : bytes -> bool;
  s_reader : bytes -> option (result (list (bytes * bytes)) ubody); s_encode : bytes -> bytes -> bytes }.
(** the result of a call, the global settings after it, and the new content of the output file if there is one *)
Definition returned : Type := status * globals * option bytes.
(** tolower, for the letters *)
Definition lower (c : N) : N := if (65 <=? c) && (c <=? 90) then c + 32 else c.
(** input_filename[len - k]; before the beginning is outside the string *)
Definition at_end (s : bytes) (k : nat) : outcome N :=
  if (k <=? length s)%nat then match nth_error s (length s - k) with Some c => Ok c | None => UB end else UB.
(** && with the right side evaluated only if needed *)
Definition andalso (x : outcome bool) (y : outcome bool) : outcome bool := obind x (fun b => if b then y else Ok false).
Definition orelse (x : outcome bool) (y : outcome bool) : outcome bool := obind x (fun b => if b then Ok true else y).
Definition is (s : bytes) (k : nat) (c : N) : outcome bool := obind (at_end s k) (fun x => Ok (lower x =? c)).
(** libsrcml.cpp:216-220 *)
Definition xml_name (s : bytes) : outcome bool :=
  andalso (Ok (4 <? length s)%nat) (andalso (is s 1 108) (andalso (is s 2 109)
    (orelse (andalso (is s 3 120) (obind (at_end s 4) (fun x => Ok (x =? 46))))
            (andalso (is s 3 99) (andalso (is s 4 114) (andalso (is s 5 115) (is s 6 46))))))).
(** srcml_archive.cpp:139-164: a clone of global_archive (C33) *)
Definition cloned (a : archive) : am := AM a [] IO_INVALID NoBuffer None false 0 None None None [] None.
(** srcml_types.hpp:266-281: at the end of its life the archive is closed, and freed *)
Definition finish (g : globals) (st : status) (m : am) : outcome returned :=
  obind (close m) (fun m => Ok (st, g, match am_files (archive_free m) with [] => None | l => Some (concat l) end)).
(** libsrcml.cpp:178-200: the unit; those calls never fail *)
Definition source_unit (g : globals) (a : archive) (input : bytes) : wunit :=
  let u := new_unit 0 in
  let s := uset (uo_settings u) ULanguage (a_language a) in
  let s := uset s UFilename (match u_filename (g_unit g) with Some f => Some f | None => Some input end) in
  let s := uset s UVersion (a_version a) in
  let s := uset s UTimestamp (u_timestamp (g_unit g)) in
  WUnitObj (with_usettings u s) None.
(** srcml_unit.cpp:556-570 [srcml_unit_parse_filename]: the file is opened before anything else *)
Definition parse_filename (sys : system) (a : archive) (u : wunit) (name : bytes) : outcome (status * wunit) :=
  match s_file sys name with
  | None => Ok (ST_IO_ERROR, u)
  | Some src => obind (decide_language (uo_settings (wu u)) a (Some name)) (fun l => unit_parse (s_env sys) a u (snd l) (Some src))
  end.
Definition is_ok (s : status) : bool := match s with ST_OK => true | _ => false end.
(** libsrcml.cpp:159-211 *)
Definition to_srcml (sys : system) (g : globals) (input output : bytes) : outcome returned :=
  obind (astep (cloned (g_archive g)) (OpenOutput true (s_creates sys output))) (fun r =>
  obind (astep (snd r) (Setting EnableSolitary)) (fun r =>
    let m := snd r in
    obind (parse_filename sys (am_a m) (source_unit g (am_a m) input) input) (fun p =>
      if is_ok (fst p) then
        obind (Archive_Model.write_unit m (am_a m) (wu (snd p))) (fun w => finish g (match fst w with RStatus s => s | _ => ST_OK end) (snd w))
      else finish g (fst p) m))).
(** srcml_unit.cpp:667-725, of the unit read; its own encoding is not set by reading (C30), and its eol is that of a new unit *)
Definition unparse_filename (sys : system) (g : globals) (src : bytes) (output : bytes) : returned :=
  let encoding := match a_src_encoding (g_archive g) with Some e => e | None => txt "ISO-8859-1" end in
  if s_creates sys output then
    (ST_OK, g, Some (s_encode sys encoding (unparse (match u_eol unit_create with 1 => EOL_LF | 2 => EOL_CR | 3 => EOL_CRLF | _ => EOL_AUTO end) src)))
  else (ST_IO_ERROR, g, None).
(** libsrcml.cpp:233-250 *)
Definition to_source (sys : system) (g : globals) (input output : bytes) : returned :=
  match s_reader sys input with
  | None => (ST_IO_ERROR, g, None)
  | Some (Handoff_Model.RUnit _ (Some b)) => unparse_filename sys g (b_src b) output
  | Some _ => (ST_OK, g, None)
  end.
(** libsrcml.cpp:222-231 *)
Definition unknown (g : globals) : returned :=
  (ST_INVALID_INPUT,
   Globals (g_archive g) (g_unit g) (match a_language (g_archive g) with Some l => txt "Language '" ++ l ++ txt "' is not supported." | None => txt "No language provided." end),
   None).
(** libsrcml.cpp:151-253 *)
Definition srcml (sys : system) (g : globals) (input output : option bytes) : outcome returned :=
  match input, output with
  | Some i, Some o =>
      obind (check_extension (g_archive g) i) (fun l =>
        match l with
        | Some _ => to_srcml sys g i o
        | None => obind (orelse (xml_name i) (Ok (match a_language (g_archive g) with Some l => beqb l (txt "xml") | None => false end)))
                    (fun b => Ok (if b then to_source sys g i o else unknown g))
        end)
  | _, _ => Ok (ST_INVALID_ARGUMENT, Globals (g_archive g) (g_unit g) (txt "No input file provided"), None)
  end.
