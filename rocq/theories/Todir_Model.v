(** Model of --to-dir (an output that is a directory): one srcML file for each source (srcml_write.cpp:66-101, srcml_utilities.hpp:31-52), on top of
    the creation of srcML (Create_Model.v) and the archive (Archive_Model.v). Not modelled here: how the file system makes directories and files
    (below, [creates] says which files can be created); --cat, --parser-test; messages and the trace log; the limit on open files (C26). *)
From Verif Require Import Base Text_Model Api_Model Writer_Model Archive_Model Input_Model Create_Model.
Local Open Scope N_scope.

(** ParseRequest.hpp:35-60: the directory for the output (src_input_file.cpp:40-42, src_input_libarchive.cpp:230-231, src_input_text.cpp:69-70; it
    is not set for srcML inputs, srcml_input_srcml.cpp:105-121) and the file name of a request, cleaned (srcml_consume.cpp:66-71, C42) *)
Record place := At { p_dir : option bytes; p_name : option bytes }.
(** calls of the two threads: on the output archive, which is not open (create_srcml.cpp:116); opening the archive for a file, a call for it (on
    the output archive if there is none), and the end of its life *)
Inductive fop := FSet (c : call) | FOpen (path : bytes) | FDo (o : eop) | FClose.
(** srcml_write.cpp:66-101 and the rest of [srcml_write_request]; the dereference of an optional that is empty is not defined *)
Definition file_request (m : cmode) (p : place) (q : creq) : list fop :=
  match q with
  | Parsed _ (Some _) =>
      match p_dir p, p_name p with
      | Some d, Some n => FOpen (unit_file d n) :: map FDo (write_request m q) ++ [FClose]
      | _, _ => [FDo EBad]
      end
  | _ => map FDo (write_request m q)
  end.
(** the order of the calls, as in Create_Model [interleave]; the places are those of the requests in the order of their schedule *)
Inductive woven (m : cmode) : list mevent -> list place -> list fop -> list fop -> Prop :=
| wv_end : woven m [] [] [] []
| wv_set c ms ps p t : woven m ms ps p t -> woven m (MSet c :: ms) ps p (FSet c :: t)
| wv_schedule q x ms ps p t : woven m ms ps (p ++ file_request m x q) t -> woven m (MSchedule q :: ms) (x :: ps) p t
| wv_write o ms ps p t : woven m ms ps p t -> woven m ms ps (o :: p) (o :: t).
(** srcml_archive.cpp:139-164 [srcml_archive_clone] *)
Definition clone (m : am) : am := AM (am_a m) (am_attributes m) IO_INVALID NoBuffer None false 0 None None None [] None.
(** The files written, in order: their names and contents. [m]: the output archive; [c]: the file being written, with its archive. A unit belongs to
    the output archive unless it has its own. The archive of a file is closed and freed (srcml_utilities.hpp:45-52); closing the output archive,
    which is not open, writes nothing. *)
Fixpoint frun (creates : bytes -> bool) (m : am) (c : option (bytes * am)) (t : list fop) : outcome (list (bytes * bytes)) :=
  match t with
  | [] => Ok []
  | FSet x :: t => obind (astep m (Setting x)) (fun r => frun creates (snd r) c t)
  | FOpen p :: t =>
      obind (arun (clone m) [Setting EnableSolitary; Setting DisableHash; OpenOutput true (creates p)]) (fun r => frun creates m (Some (p, snd r)) t)
  | FDo o :: t =>
      match c with
      | Some (p, k) => obind (arun k (calls_of (am_a m) [o])) (fun r => frun creates m (Some (p, snd r)) t)
      | None => obind (arun m (calls_of (am_a m) [o])) (fun r => frun creates (snd r) None t)
      end
  | FClose :: t =>
      match c with
      | Some (p, k) => obind (astep k Close) (fun r => obind (frun creates m None t) (fun l => Ok (map (fun s => (p, s)) (am_files (archive_free (snd r))) ++ l)))
      | None => frun creates m None t
      end
  end.
(** create_srcml.cpp:102-365 with SRCML_COMMAND_NOARCHIVE. [makes creates r ins ps t l]: no input is refused, and the order of calls [t] writes the
    files [l]. *)
Definition makes (creates : bytes -> bool) (r : crequest) (ins : list (input_src * input)) (ps : list place) (t : list fop) (l : list (bytes * bytes)) : Prop :=
  exists cs ms warned filelist rs m1,
    setup r (map fst ins) = Ok (Some cs) /\ handle r ins = Some (ms, warned, false, filelist) /\ woven (c_mode r) ms ps [] t /\
    arun new_am (map Setting cs) = Ok (rs, m1) /\ frun creates m1 None t = Ok l.
(** what is in a file at the end: a file is truncated when it is opened (srcml_archive.cpp:915-929, xmlOutputBufferCreateFilename) *)
Fixpoint file_at (p : bytes) (l : list (bytes * bytes)) : option bytes :=
  match l with [] => None | (q, s) :: l => match file_at p l with Some s => Some s | None => if beqb p q then Some s else None end end.
