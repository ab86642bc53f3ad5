(** Model of archives being opened, written, read and closed (srcml_archive.cpp:875-1345). *)
From Verif Require Import Base Text_Model Api_Model Writer_Model.
Local Open Scope N_scope.

(** archive->output_buffer: null; open, with its number, whether it writes to a memory buffer, and the bytes written directly to it so
    far; closed by the text writer but still pointed to *)
Inductive obuffer := NoBuffer | Buffer (id : nat) (memory : bool) (s : bytes) | Freed.
(** [am_trans]: the translator and the output buffer its text writer has (its bytes are then in the writer);
    [am_next]: number of the next output buffer; [am_memory]: archive->buffer and archive->size are set, for the memory buffer of that output
    buffer; [am_x]: the content of this memory buffer, [None] once detached; [am_user]: the last values stored through buffer and size
    ([Some None]: a null pointer and 0); [am_files]: what was delivered to outputs other than memory, latest last;
    [am_reader]: the units not yet read (the reader is C27). *)
Record am := AM {
  am_a : archive; am_attributes : list bytes; am_type : iotype; am_buf : obuffer; am_trans : option (trans * option (nat * bool)); am_raw : bool;
  am_next : nat; am_memory : option nat; am_x : option bytes; am_user : option (option bytes); am_files : list bytes;
  am_reader : option (list uobj) }.
Definition new_am : am := AM archive_create [] IO_INVALID NoBuffer None false 0 None None None [] None.
(** calls; pointers that may be null are options. WriteUnit gives the settings of the unit's own archive. *)
Inductive aop :=
| OpenMemory (args : bool)                 (* [false]: a null buffer or size *)
| OpenOutput (args : bool) (ok : bool)     (* filename, FILE, fd, io; [ok]: the output could be created *)
| OpenRead (args : bool) (input : option (archive * list bytes * list uobj))
    (* [None]: the input could not be opened; otherwise the settings and attributes the archive takes from its root, and its units *)
| WriteUnit (u : option (archive * uobj))
| WriteString (s : option bytes) (len : Z)
| ReadUnit | SkipUnit | Close
| Setting (c : call).
Inductive ares := RStatus (s : status) | RUnit (u : option uobj) | RInt (n : Z) | RVoid.

Definition set_trans (m : am) (b : obuffer) (t : option (trans * option (nat * bool))) : am :=
  AM (am_a m) (am_attributes m) (am_type m) b t (am_raw m) (am_next m) (am_memory m) (am_x m) (am_user m) (am_files m) (am_reader m).
(** bytes delivered when output buffer [id] is closed; what goes to a memory buffer the archive no longer has is lost *)
Definition deliver (m : am) (id : nat) (memory : bool) (s : bytes) : am :=
  let mine := match am_memory m with Some k => Nat.eqb k id | None => false end in
  AM (am_a m) (am_attributes m) (am_type m) (am_buf m) (am_trans m) (am_raw m) (am_next m) (am_memory m)
     (if memory && mine then Some (match am_x m with Some x => x ++ s | None => s end) else am_x m)
     (am_user m) (if memory then am_files m else am_files m ++ [s]) (am_reader m).
Definition start_writer (t : trans) (s : option bytes) : trans :=
  let o := t_out t in
  with_out t (SOut (match s with Some s => Some (Writer s (Some []) false []) | None => None end) (so_depth o) (so_didwrite o) (so_ns o)
                   (so_options o) (so_tabs o) (so_macros o) (so_pi o) (so_encoding o) (so_final o)).
(** srcml_archive.cpp:876-903. With no output buffer (the file could not be created) the text writer has nowhere to write and each
    of its functions returns -1: [so_w] is [None]. *)
Definition create_trans (m : am) : outcome (trans * option (nat * bool)) :=
  let a := am_a m in
  let t := new_trans (default_to (a_encoding a) (txt "UTF-8")) (a_options a) (a_namespaces a) (a_pi a) (dec_of (a_tabstop a))
             (a_revision a) (a_url a) None (a_version a) (am_attributes m) (a_macros a) in
  match am_buf m with
  | Buffer id mem s => Ok (start_writer t (Some s), Some (id, mem))
  | NoBuffer => Ok (start_writer t None, None)
  | Freed => UB
  end.
(** srcml_archive.cpp:1203-1230. A unit that has only its header is never in the user's hands: srcml_archive_read_unit reads
    the body or returns null. *)
Definition write_unit (m : am) (ua : archive) (u : uobj) : outcome (ares * am) :=
  if negb (uo_read_body u) then Ok (RStatus ST_UNINITIALIZED_UNIT, m) else
  match am_type m with
  | IO_WRITE | IO_RW =>
      obind (match am_trans m with Some t => Ok t | None => create_trans m end) (fun t =>
        obind (add_unit ua (fst t) u) (fun r => Ok (RStatus ST_OK, set_trans m (am_buf m) (Some (fst r, snd t)))))
  | _ => Ok (RStatus ST_INVALID_IO_OPERATION, m)
  end.
(** srcml_archive.cpp:1245-1257 *)
Definition write_raw_string (m : am) (s : bytes) : outcome am :=
  let done (b : obuffer) (t : option (trans * option (nat * bool))) :=
    Ok (AM (am_a m) (am_attributes m) (am_type m) b t true (am_next m) (am_memory m) (am_x m) (am_user m) (am_files m) (am_reader m)) in
  match am_buf m with
  | NoBuffer => done NoBuffer (am_trans m)
  | Freed => UB
  | Buffer id mem b =>
      match am_trans m with
      | Some (t, Some (id', mem')) =>
          if Nat.eqb id id' then done (Buffer id mem b) (Some (with_out t (on_w (t_out t) (fun w => Writer (w_out w ++ s) (w_nodes w) (w_intag w) (w_ns w))), Some (id', mem')))
          else done (Buffer id mem (b ++ s)) (am_trans m)
      | _ => done (Buffer id mem (b ++ s)) (am_trans m)
      end
  end.
(** srcml_archive.cpp:1328-1360. The text writer closes its output buffer; if that is still archive->output_buffer, this pointer dangles. *)
Definition close_trans (m : am) : am :=
  match am_trans m with
  | None => m
  | Some (t, r) =>
      match so_w (t_out t), r with
      | Some _, Some (id, mem) =>
          let t' := trans_close t in
          set_trans (deliver m id mem (so_final (t_out t')))
                    (match am_buf m with Buffer id' _ _ as b => if Nat.eqb id id' then Freed else b | b => b end) (Some (t', None))
      | _, _ => set_trans m (am_buf m) (Some (trans_close t, None))
      end
  end.
Definition close (m : am) : outcome am :=
  obind (match am_type m, am_raw m, am_trans m with
         | IO_WRITE, false, None => obind (create_trans m) (fun t => Ok (set_trans m (am_buf m) (Some t)))
         | _, _, _ => Ok m
         end) (fun m =>
    let m := close_trans m in
    obind (if am_raw m then match am_buf m with
                            | NoBuffer => Ok m
                            | Buffer id mem s => Ok (set_trans (deliver m id mem s) NoBuffer (am_trans m))
                            | Freed => UB
                            end
           else Ok m) (fun m =>
      let m := match am_memory m with
               | Some _ => AM (am_a m) (am_attributes m) (am_type m) (am_buf m) (am_trans m) (am_raw m) (am_next m) (am_memory m) None
                              (Some (am_x m)) (am_files m) (am_reader m)
               | None => m
               end in
      Ok (AM (am_a m) (am_attributes m) IO_INVALID (am_buf m) (am_trans m) (am_raw m) (am_next m) (am_memory m) (am_x m) (am_user m) (am_files m) (am_reader m)))).
Definition astep (m : am) (c : aop) : outcome (ares * am) :=
  match c with
  | OpenMemory args => (* 941-957 *)
      if negb args then Ok (RStatus ST_INVALID_ARGUMENT, m) else
      Ok (RStatus ST_OK, AM (am_a m) (am_attributes m) IO_WRITE (Buffer (am_next m) true []) (am_trans m) (am_raw m) (S (am_next m))
                            (Some (am_next m)) (Some []) (am_user m) (am_files m) (am_reader m))
  | OpenOutput args ok => (* 915-929, 967-1024 *)
      if negb args then Ok (RStatus ST_INVALID_ARGUMENT, m) else
      Ok (RStatus ST_OK, AM (am_a m) (am_attributes m) IO_WRITE (if ok then Buffer (am_next m) false [] else NoBuffer) (am_trans m) (am_raw m) (S (am_next m)) (am_memory m)
                            (am_x m) (am_user m) (am_files m) (am_reader m))
  | OpenRead args input => (* 1032-1180 *)
      if negb args then Ok (RStatus ST_INVALID_ARGUMENT, m) else
      match input with
      | None => Ok (RStatus ST_IO_ERROR, m)
      | Some (a, al, us) => Ok (RStatus ST_OK, AM a al IO_READ (am_buf m) (am_trans m) (am_raw m) (am_next m) (am_memory m) (am_x m) (am_user m) (am_files m) (Some us))
      end
  | WriteUnit None => Ok (RStatus ST_INVALID_ARGUMENT, m)
  | WriteUnit (Some (ua, u)) => write_unit m ua u
  | WriteString (Some s) len =>
      if (len <? 0)%Z then Ok (RStatus ST_INVALID_ARGUMENT, m)
      else if (Z.of_nat (length s) <? len)%Z then UB (* reads past the caller's text *)
      else obind (write_raw_string m (firstn (Z.to_nat len) s)) (fun m => Ok (RStatus ST_OK, m))
  | WriteString None _ => Ok (RStatus ST_INVALID_ARGUMENT, m)
  | ReadUnit => (* 1268-1290 *)
      match am_type m with
      | IO_READ | IO_RW =>
          match am_reader m with
          | None => UB
          | Some [] => Ok (RUnit None, m)
          | Some (u :: r) => Ok (RUnit (Some u), AM (am_a m) (am_attributes m) (am_type m) (am_buf m) (am_trans m) (am_raw m) (am_next m) (am_memory m) (am_x m) (am_user m) (am_files m) (Some r))
          end
      | _ => Ok (RUnit None, m)
      end
  | SkipUnit => (* 1300-1317 *)
      match am_type m with
      | IO_READ | IO_RW =>
          match am_reader m with
          | None => UB
          | Some [] => Ok (RInt 0, m)
          | Some (u :: r) => Ok (RInt 1, AM (am_a m) (am_attributes m) (am_type m) (am_buf m) (am_trans m) (am_raw m) (am_next m) (am_memory m) (am_x m) (am_user m) (am_files m) (Some r))
          end
      | _ => Ok (RInt 0, m)
      end
  | Close => obind (close m) (fun m => Ok (RVoid, m))
  | Setting c => (* options and settings, C11-C18; the translator has copied or already used what it needs *)
      let r := step (am_a m) c in
      Ok (RStatus (fst r), AM (snd r) (am_attributes m) (am_type m) (am_buf m) (am_trans m) (am_raw m) (am_next m) (am_memory m) (am_x m) (am_user m) (am_files m) (am_reader m))
  end.
Fixpoint arun (m : am) (cs : list aop) : outcome (list ares * am) :=
  match cs with
  | [] => Ok ([], m)
  | c :: cs => obind (astep m c) (fun r => obind (arun (snd r) cs) (fun q => Ok (fst r :: fst q, snd q)))
  end.
