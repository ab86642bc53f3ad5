(** Model of the step of the client that creates srcML (create_srcml.cpp, srcml_input_srcml.cpp, src_input_text.cpp, src_input_file.cpp,
    src_input_filelist.cpp, src_input_filesystem.cpp, src_input_libarchive.cpp, srcml_write.cpp) on top of the archive (Archive_Model.v).
    Not modelled here: --to-dir, --cat, --parser-test; what the parser and the transformations make of one source (a request below says what
    they gave: C08, C50-C53); messages and the trace log. *)
From Verif Require Import Base Text_Model Api_Model Writer_Model Archive_Model Input_Model.
Local Open Scope N_scope.

(** srcml_cli.hpp:86-150 [srcml_request_t], the parts used here. The bits of markup_options are booleans; xmlns_namespaces is a map, here
    the list of its entries in the order of the map. *)
Inductive cmode := Plain | Fragment | Raw.
Record crequest := CRequest {
  c_xml_encoding : option bytes; c_src_encoding : option bytes; c_url : option bytes; c_version : option bytes; c_language : option bytes;
  c_archive : bool; c_hash : bool; c_position : bool; c_cpp : bool; c_if0 : bool; c_text_else : bool; c_no_decl : bool;
  c_tabs : N; c_ext : list bytes; c_xmlns : list (bytes * bytes); c_filename : option bytes;
  c_output_xml : bool (* SRCML_COMMAND_XML *); c_revision : bool; c_mode : cmode }.

(** ** What the worker threads hand to the writer *)
(** a unit and the settings of its archive; [None]: it was created on the output archive (srcml_consume.cpp:49) *)
Definition cunit : Type := option archive * uobj.
Inductive cresults :=
| NoResults                     (* no transformations *)
| RBool (b : bool)
| RNumber (s : option bytes)    (* std::to_string of the number; [None]: not a number, or converting it to int is undefined *)
| RString (s : bytes)
| RUnits (us : list cunit).     (* the units; [RUnits []] also stands for a result without type *)
(** a request in the write queue: its status is not OK ([warns]: a warning is given), or it has a unit, or results *)
Inductive creq := Failed (warns : bool) | Parsed (r : cresults) (u : option cunit).

(** calls of the client on the output archive *)
Inductive eop := ESet (c : call) | EUnit (u : cunit) | EStr (s : bytes) | EBad (* undefined behaviour *).
(** a text and a newline unless it ends with one; s[strlen(s) - 1] with an empty text is outside of it *)
Definition line_ops (s : bytes) : list eop :=
  EStr s :: match s with [] => [EBad] | _ => if last s 0 =? 10 then [] else [EStr [10]] end.
(** srcml_write.cpp:163-212 *)
Definition main_unit (m : cmode) (u : option cunit) : list eop :=
  match u with
  | None => []
  | Some (own, v) =>
      match m with
      | Plain => [EUnit (own, v)]
      | Fragment => match outer v with Ok s => line_ops s | UB => [EBad] end
      | Raw => match inner v with Ok [] => [EStr []] | Ok s => line_ops s | UB => [EBad] end
      end
  end.
(** srcml_write.cpp:41-241 [srcml_write_request] *)
Definition write_request (m : cmode) (q : creq) : list eop :=
  match q with
  | Failed _ => []
  | Parsed (RBool b) _ => [EStr ((if b then txt "true" else txt "false") ++ [10])]
  | Parsed (RNumber None) _ => [EBad]
  | Parsed (RNumber (Some s)) _ => [EStr s; EStr [10]]
  | Parsed (RString s) _ => line_ops s
  | Parsed (RUnits us) u =>
      (if Nat.ltb 1 (length us) then [ESet DisableSolitary] else []) ++ map EUnit us ++ match us with [] => main_unit m u | _ => [] end
  | Parsed NoResults u => main_unit m u
  end.
Definition warns (q : creq) : bool := match q with Failed w => w | _ => false end.

(** ** Settings: create_srcml.cpp:128-258 *)
Definition opt_attr (k : sattr) (v : option bytes) : list call := match v with Some _ => [SetAttr k v] | None => [] end.
Definition flag (b : bool) (c : call) : list call := if b then [c] else [].
(** 154: std::string::find_first_not_of("./") and substr; nothing left throws: [None] *)
Fixpoint skip_dots (s : bytes) : option bytes :=
  match s with [] => None | c :: r => if (c =? 46) || (c =? 47) then skip_dots r else Some s end.
(** 142-161 *)
Definition url_calls (r : crequest) (ins : list input_src) : outcome (list call) :=
  match c_url r with
  | Some u => Ok [SetAttr AUrl (Some (uri_resource u))]
  | None =>
      match ins with
      | [i] => match in_archives i with
               | [] => Ok []
               | _ => match skip_dots (uri_resource (in_filename i)) with Some n => Ok [SetAttr AUrl (Some n)] | None => UB end
               end
      | _ => Ok []
      end
  end.
(** 206-208 *)
Definition lone (r : crequest) (ins : list input_src) : bool :=
  match ins with
  | [i] => negb (beqb (in_protocol i) (txt "filelist")) && negb (c_archive r) && negb (in_isdir i) && match in_archives i with [] => true | _ => false end
  | _ => false
  end.
(** 242-244: find, substr; without '=' (npos) both are the whole text *)
Definition ext_call (e : bytes) : call :=
  match strchr e 61 with
  | Some p => RegisterExtension (Some (firstn p e)) (Some (skipn (S p) e))
  | None => RegisterExtension (Some e) (Some e)
  end.
Definition ns_call (n : bytes * bytes) : call := RegisterNamespace (Some (fst n)) (Some (snd n)).
Definition settings_calls (r : crequest) (ins : list input_src) : outcome (list call) :=
  obind (url_calls r ins) (fun url => Ok (
    opt_attr XmlEncoding (c_xml_encoding r) ++ opt_attr SrcEncoding (c_src_encoding r) ++ url ++ opt_attr AVersion (c_version r) ++
    flag (c_archive r) DisableSolitary ++ flag (c_position r) (EnableOption (2 ^ 2)) ++ flag (c_cpp r) (EnableOption (2 ^ 3)) ++
    flag (c_if0 r) (EnableOption (2 ^ 5)) ++ flag (c_text_else r) (EnableOption (2 ^ 4)) ++ flag (c_no_decl r) (EnableOption (2 ^ 1)) ++
    flag (c_hash r) EnableHash ++
    [SetAttr ALanguage (c_language r); SetTabstop (c_tabs r)] ++
    (if lone r ins then [EnableSolitary; if c_hash r then EnableHash else DisableHash] else [DisableSolitary; EnableHash]) ++
    map ext_call (c_ext r) ++ map ns_call (c_xmlns r))).
(** the calls are made until one fails, which ends the program *)
Fixpoint all_ok (a : archive) (cs : list call) : bool :=
  match cs with [] => true | c :: cs => match fst (step a c) with ST_OK => all_ok (snd (step a c)) cs | _ => false end end.
(** [None]: the program ends with a message *)
Definition setup (r : crequest) (ins : list input_src) : outcome (option (list call)) :=
  obind (settings_calls r ins) (fun cs => Ok (
    if negb (lone r ins) && match c_filename r with Some _ => true | None => false end then None
    else if all_ok archive_create cs then Some cs else None)).

(** ** Inputs *)
(** an srcML input that could be opened: its own settings, and its units as requests *)
Record srcml_in := SrcmlIn { si_solitary : bool; si_namespaces : list (bytes * bytes); si_units : list creq }.
(** entries libarchive finds in an input: directories, entries without a language, sources *)
Inductive entry := EDir | EIgnored | ESource (q : creq).
Inductive entries :=
| Unopened                                          (* warning *)
| Skipped                                           (* extension not handled, or an archive in a directory *)
| NoLanguage                                        (* standard input without --language *)
| Opened (container : bool) (es : list entry).      (* [container]: the format is neither raw nor empty *)
Inductive input :=
| ISrcml (u : nat) (i : option srcml_in)            (* [u]: --unit, 0 for all; [None]: could not be opened *)
| IText (pieces : list creq)                        (* C40 *)
| IList (ok : bool) (items : list input)            (* a file list (C41); [ok]: it could be read *)
| IDirectory (files : list entries)
| IFile (q : creq)
| IEntries (e : entries).
(** what the main thread does: settings of the output archive, and requests to the parse queue *)
Inductive mevent := MSet (c : call) | MSchedule (q : creq).
Inductive handled := Handled (n : nat) | Refused (* -1 *) | Exits.
Record hresult := HResult { h_events : list mevent; h_warned : bool; h_result : handled }.

(** srcml_input_srcml.cpp:34-139 *)
Definition srcml_events (r : crequest) (u : nat) (i : srcml_in) : list mevent :=
  if c_output_xml r
  then (if negb (si_solitary i) && Nat.eqb u 0 then [MSet DisableSolitary] else []) ++
       map (fun n => MSet (ns_call n)) (if c_revision r then filter (fun n => negb (beqb (snd n) DIFF_URI)) (si_namespaces i) else si_namespaces i)
  else [].
Definition chosen {A} (u : nat) (l : list A) : list A := match u with O => l | S k => firstn 1 (skipn k l) end.
Definition input_srcml (r : crequest) (u : nat) (i : option srcml_in) : hresult :=
  match i with
  | None => HResult [] true Refused
  | Some i =>
      match chosen u (si_units i) with
      | [] => HResult (srcml_events r u i) true Exits
      | qs => HResult (srcml_events r u i ++ map MSchedule qs) false (Handled 1)
      end
  end.
(** src_input_text.cpp:55-226: a piece that ends with a NUL is not the last *)
Fixpoint input_text (qs : list creq) : list mevent :=
  match qs with [] => [] | [q] => [MSchedule q] | q :: qs => MSet DisableSolitary :: MSchedule q :: input_text qs end.
(** src_input_libarchive.cpp:135-279 *)
Fixpoint entry_events (container : bool) (count : nat) (es : list entry) : list mevent * nat :=
  match es with
  | [] => ([], count)
  | e :: es =>
      let first := if container && Nat.eqb count 0 then [MSet DisableSolitary; MSet EnableHash] else [] in
      match e with
      | EDir => let x := entry_events container count es in (first ++ fst x, snd x)
      | EIgnored => let x := entry_events container (S count) es in (first ++ fst x, snd x)
      | ESource q => let x := entry_events container (S count) es in (first ++ MSchedule q :: fst x, snd x)
      end
  end.
Definition input_entries (e : entries) : hresult :=
  match e with
  | Unopened => HResult [] true (Handled 0)
  | Skipped => HResult [] false (Handled 0)
  | NoLanguage => HResult [] true Exits
  | Opened c es => let x := entry_events c 0 es in HResult (fst x) false (Handled (snd x))
  end.
(** what follows is not done once the program has ended *)
Definition then_do (x y : hresult) : hresult :=
  match h_result x with Exits => x | _ => HResult (h_events x ++ h_events y) (h_warned x || h_warned y) (h_result y) end.
(** src_input_filesystem.cpp:100-123 (files in sorted order): the results of the files are not looked at *)
Definition input_directory (es : list entries) : hresult :=
  fold_right (fun e y => then_do (input_entries e) y) (HResult [] false (Handled 1)) es.
(** create_srcml.cpp:47-99: which handler an input goes to; src_input_file.cpp:34-36: with --verbose files go to libarchive *)
Inductive hkind := HSrcml | HText | HList | HDirectory | HFile | HLibarchive.
Definition handler (verbose : bool) (s : input_src) : hkind :=
  match in_state s with
  | KSrcml => HSrcml
  | _ =>
      if beqb (in_protocol s) (txt "text") then HText
      else if beqb (in_protocol s) (txt "filelist") then HList
      else if beqb (in_protocol s) (txt "file") && in_isdir s then HDirectory
      else if beqb (in_protocol s) (txt "file") && match in_archives s, in_compressions s with [], [] => true | _, _ => false end
           then (if verbose then HLibarchive else HFile)
      else HLibarchive
  end.
Definition kind_of (i : input) : hkind :=
  match i with ISrcml _ _ => HSrcml | IText _ => HText | IList _ _ => HList | IDirectory _ => HDirectory | IFile _ => HFile | IEntries _ => HLibarchive end.
(** create_srcml.cpp:47-99 [srcml_handler_dispatch]; src_input_filelist.cpp:83-117 *)
Fixpoint dispatch (r : crequest) (i : input) : hresult :=
  match i with
  | ISrcml u s => input_srcml r u s
  | IText qs => HResult (input_text qs) false (Handled (length qs))
  | IList ok items =>
      then_do (HResult [MSet DisableSolitary] false (Handled 1))
        (if ok then (fix go (l : list input) : hresult :=
                       match l with
                       | [] => HResult [] false (Handled 1)
                       | i :: l => let x := dispatch r i in match h_result x with Refused => x | _ => then_do x (go l) end
                       end) items
         else HResult [] true Refused)
  | IDirectory es => input_directory es
  | IFile q => HResult [MSchedule q] false (Handled 1)
  | IEntries e => input_entries e
  end.
(** create_srcml.cpp:316-337: the loop over the inputs. [None]: the program has ended. Otherwise the events, whether there were messages, and
    whether an input was refused, and whether there is a file list among the inputs handled. *)
Fixpoint handle (r : crequest) (ins : list (input_src * input)) : option (list mevent * bool * bool * bool) :=
  match ins with
  | [] => Some ([], false, false, false)
  | (s, i) :: ins =>
      let x := dispatch r i in let filelist := beqb (in_protocol s) (txt "filelist") in
      match h_result x with
      | Exits => None
      | Refused => Some (h_events x, h_warned x, true, filelist)
      | Handled _ => match handle r ins with
                     | Some (ms, w, refused, fl) => Some (h_events x ++ ms, h_warned x || w, refused, filelist || fl)
                     | None => None
                     end
      end
  end.
(** the requests scheduled *)
Definition scheduled (ms : list mevent) : list creq := flat_map (fun e => match e with MSchedule q => [q] | MSet _ => [] end) ms.
(** create_srcml.cpp:339-362: is the archive closed? *)
Definition closes (warned refused filelist : bool) (qs : list creq) : bool :=
  (negb refused && negb (warned || existsb warns qs)) || filelist.

(** ** Threads *)
(** The main thread and the writing thread call the archive; requests are written in the order of their schedule (C25), each after its schedule
    (the workers between them are in the requests). [p]: the calls of the writing thread for the requests scheduled so far. One call is taken
    to be atomic, although the two threads do not exclude each other. *)
Inductive interleave (m : cmode) : list mevent -> list eop -> list eop -> Prop :=
| il_end : interleave m [] [] []
| il_set c ms p t : interleave m ms p t -> interleave m (MSet c :: ms) p (ESet c :: t)
| il_schedule q ms p t : interleave m ms (p ++ write_request m q) t -> interleave m (MSchedule q :: ms) p t
| il_write o ms p t : interleave m ms p t -> interleave m ms (o :: p) (o :: t).
(** the calls as archive calls; [a]: the settings of the archive at this point *)
Fixpoint calls_of (a : archive) (t : list eop) : list aop :=
  match t with
  | [] => []
  | ESet c :: t => Setting c :: calls_of (snd (step a c)) t
  | EUnit (own, u) :: t => WriteUnit (Some (match own with Some ua => ua | None => a end, u)) :: calls_of a t
  | EStr s :: t => WriteString (Some s) (Z.of_nat (length s)) :: calls_of a t
  | EBad :: t => WriteString (Some []) 1 :: calls_of a t
  end.
(** srcml_archive.cpp:108-133 [srcml_archive_free], of an archive open for writing: the translator's output is closed by its destructor
    (srcMLOutput.cpp:114-140), which ends the document but writes nothing else; without a translator the buffer is closed *)
Definition archive_free (m : am) : am :=
  match am_trans m with
  | Some (t, r) =>
      match so_w (t_out t), r with
      | Some _, Some (id, mem) => set_trans (deliver m id mem (so_final (out_close (t_out t)))) NoBuffer None
      | _, _ => set_trans m NoBuffer None
      end
  | None => match am_buf m with Buffer id mem s => set_trans (deliver m id mem s) NoBuffer None | _ => m end
  end.
(** create_srcml.cpp:102-365 [create_srcml], with a file for output. [outputs r ins t m]: the program does not end before, and the order of calls
    [t] leads to the archive [m], which has delivered its output. *)
Definition outputs (r : crequest) (ins : list (input_src * input)) (t : list eop) (m : am) : Prop :=
  exists cs ms warned refused filelist rs m1,
    setup r (map fst ins) = Ok (Some cs) /\ handle r ins = Some (ms, warned, refused, filelist) /\ interleave (c_mode r) ms [] t /\
    (let closed := closes warned refused filelist (scheduled ms) in
     arun new_am (OpenOutput true true :: map Setting cs ++ calls_of (run cs archive_create) t ++ (if closed then [Close] else [])) = Ok (rs, m1) /\
     m = if closed then m1 else archive_free m1).
