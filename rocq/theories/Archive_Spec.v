(** Specification of archive documents (C23) and of the life of an archive (C24, C36). *)
From Verif Require Import Base Text_Model Text_Spec Api_Model Writer_Model Writer_Spec Archive_Model.
Local Open Scope N_scope.

(** ** Documents *)
Definition xml_declaration (a : archive) : bytes :=
  if opt (a_options a) B_NO_XML_DECL then []
  else txt "<?xml version=""1.0"" encoding=""" ++ default_to (a_encoding a) (txt "UTF-8") ++ txt """ standalone=""yes""?>" ++ [10].
Definition instruction (a : archive) : bytes := match a_pi a with Some (t, d) => txt "<?" ++ t ++ [32] ++ d ++ txt "?>" ++ [10] | None => [] end.
Definition is_archive (a : archive) : bool := opt (a_options a) B_ARCHIVE.
(** the settings that decide a start tag at a depth (0: the document element) *)
Definition tag_settings (a : archive) (depth : N) (l : list ns) : sout :=
  SOut None depth true l (a_options a) (dec_of (a_tabstop a)) [] None [] [].
Definition root_namespaces (a : archive) : list ns := merge default_namespaces (a_namespaces a).
Definition element_name (l : list ns) : bytes := prefixed (prefix_at SRC l) (txt "unit").
Definition root_tag (a : archive) (attributes : list bytes) : bytes :=
  start_tag (tag_settings a 0 (root_namespaces a)) (TagArgs None (a_revision a) (a_url a) None (a_version a) None None None attributes true).
Definition macro_xml (p : bytes * bytes) : bytes := txt "<macro-list" ++ attrs [(txt "token", fst p); (txt "type", snd p)] ++ txt "/>".
Definition macro_list (a : archive) : bytes := flat_map macro_xml (pairs_of (a_macros a)).
(** the namespaces of a unit of archive [ua] *)
Definition all_namespaces (ua : archive) (u : uobj) : list ns :=
  let l := match uo_namespaces u with Some l => merge (a_namespaces ua) l | None => a_namespaces ua end in
  merge default_namespaces (match a_revision_number ua with Some _ => erase_uri l DIFF_URI | None => l end).
Definition in_archive_args (a ua : archive) (u : uobj) : tag_args :=
  let s := uo_settings u in let r := a_revision_number ua in
  TagArgs (Some (match u_language s with Some l => l | None => getLanguageString (uo_derived u) end))
          (match (if is_archive a then uo_revision u else None) with Some v => Some v | None => a_revision a end)
          (if is_archive a then None else rev_attr r (uo_url u))
          (rev_attr r (u_filename s)) (rev_attr r (u_version s)) (rev_attr r (u_timestamp s)) (rev_attr r (u_hash s)) (rev_attr r (u_encoding s))
          (uo_attributes u) false.
Definition selects_revision (ua : archive) : option nat :=
  match a_revision_number ua with Some k => match find_uri (a_namespaces ua) DIFF_URI with Some _ => Some (N.to_nat k) | None => None end | None => None end.
(** [content ua u c]: [c] is what stands between the tags of the unit, [None] if it is written as an empty element *)
Definition content (ua : archive) (u : uobj) (c : option bytes) : Prop :=
  exists b, inner u = Ok b /\
    match selects_revision ua with
    | Some k => exists b', extract_revision b k false = Ok b' /\ c = Some b'
    | None => c = match b with [] => None | _ => Some b end
    end.
Definition unit_doc (a : archive) (depth : N) (x : archive * uobj * option bytes) : bytes :=
  let ua := fst (fst x) in let u := snd (fst x) in
  unit_xml (start_tag (tag_settings a depth (all_namespaces ua u)) (in_archive_args a ua u)) (element_name (all_namespaces ua u)) (snd x).
Definition good_unit (x : archive * uobj * option bytes) : Prop := content (fst (fst x)) (snd (fst x)) (snd x) /\ uo_read_body (snd (fst x)) = true.
(** the document of an archive with these units *)
Definition archive_doc (a : archive) (attributes : list bytes) (us : list (archive * uobj * option bytes)) : bytes :=
  xml_declaration a ++ instruction a ++
  match us with
  | [] => unit_xml (root_tag a attributes) (element_name (root_namespaces a)) (match pairs_of (a_macros a) with [] => None | _ => Some (macro_list a) end)
  | _ => unit_xml (root_tag a attributes) (element_name (root_namespaces a))
           (Some (macro_list a ++ flat_map (fun x => [10; 10] ++ unit_doc a 1 x) us ++ [10; 10]))
  end ++ [10].
Definition solitary_doc (a : archive) (x : archive * uobj * option bytes) : bytes :=
  xml_declaration a ++ instruction a ++ unit_doc a 0 x ++ [10].

(** ** Life of an archive *)
(** the state that decides what is allowed: the last opening or closing that took effect *)
Definition opening (c : aop) : option iotype :=
  match c with
  | OpenMemory true | OpenOutput true _ => Some IO_WRITE
  | OpenRead true (Some _) => Some IO_READ
  | Close => Some IO_INVALID
  | _ => None
  end.
Fixpoint mode_after (t : iotype) (cs : list aop) : iotype :=
  match cs with [] => t | c :: cs => mode_after (match opening c with Some t => t | None => t end) cs end.

(** calls that write nothing, open nothing and close nothing, on an archive open for writing *)
Definition quiet (c : aop) : Prop :=
  match c with
  | Setting _ | ReadUnit | SkipUnit | OpenMemory false | OpenOutput false _ | OpenRead false _ | OpenRead _ None => True
  | WriteUnit None | WriteString None _ => True
  | WriteUnit (Some (_, u)) => uo_read_body u = false
  | WriteString (Some _) len => (len < 0)%Z
  | _ => False
  end.
(** calls that write these units in order, the first call writing the first unit *)
Inductive writing : list aop -> list (archive * uobj * option bytes) -> Prop :=
| writing_nil : writing [] []
| writing_unit ua u c cs us : later cs us -> writing (WriteUnit (Some (ua, u)) :: cs) ((ua, u, c) :: us)
with later : list aop -> list (archive * uobj * option bytes) -> Prop :=
| later_nil : later [] []
| later_unit ua u c cs us : later cs us -> later (WriteUnit (Some (ua, u)) :: cs) ((ua, u, c) :: us)
| later_quiet c cs us : quiet c -> later cs us -> later (c :: cs) us.
(** every unit that has content was accepted *)
Definition accepted (c : aop) (r : ares) : Prop :=
  match c with WriteUnit (Some (_, u)) => uo_read_body u = true -> r = RStatus ST_OK | _ => True end.
(** no call of the history has written anything (or closed an archive open for writing) *)
Definition writes_nothing (t : iotype) (c : aop) : Prop :=
  match c with
  | WriteUnit (Some (_, u)) => t <> IO_WRITE \/ uo_read_body u = false
  | WriteString (Some _) len => (len < 0)%Z
  | Close => t <> IO_WRITE
  | _ => True
  end.
Fixpoint unwritten (t : iotype) (cs : list aop) : Prop :=
  match cs with [] => True | c :: cs => writes_nothing t c /\ unwritten (match opening c with Some t => t | None => t end) cs end.
(** the archive has never been opened on memory *)
Definition not_memory (c : aop) : Prop := match c with OpenMemory true => False | _ => True end.
(** the units a history of reading and skipping calls returns *)
Definition reading (c : aop) : Prop :=
  match c with
  | OpenMemory true | OpenOutput true _ | OpenRead true (Some _) | Close => False
  | WriteString (Some _) len => (len < 0)%Z
  | _ => True
  end.
Fixpoint read_results (us : list uobj) (cs : list aop) : list ares :=
  match cs with
  | [] => []
  | ReadUnit :: cs => match us with [] => RUnit None :: read_results [] cs | u :: us => RUnit (Some u) :: read_results us cs end
  | SkipUnit :: cs => match us with [] => RInt 0 :: read_results [] cs | u :: us => RInt 1 :: read_results us cs end
  | _ :: cs => read_results us cs
  end.
Definition is_read (r : ares) : bool := match r with RUnit _ | RInt _ => true | _ => false end.

(** ** Results *)
(** the document was delivered: to the caller's memory, or to the output *)
Definition delivered (m m' : am) (memory : bool) (s : bytes) : Prop :=
  if memory then am_user m' = Some (Some s) /\ am_files m' = am_files m else am_files m' = am_files m ++ [s] /\ am_user m' = am_user m.
(** the units of a solitary archive, one after the other; [options] is an attribute of the first only *)
Definition solitary_all (a : archive) (us : list (archive * uobj * option bytes)) : bytes :=
  match us with [] => [] | x :: us => unit_doc a 0 x ++ flat_map (unit_doc a 1) us end.
Definition oks (n : nat) : list ares := repeat (RStatus ST_OK) n.
(** the setting calls of a history *)
Fixpoint settings (cs : list aop) : list call := match cs with [] => [] | Setting c :: cs => c :: settings cs | _ :: cs => settings cs end.
Definition no_input (c : aop) : Prop := match c with OpenRead true (Some _) => False | _ => True end.
(** what is written for a unit when no revision is selected *)
Definition nonempty (b : bytes) : option bytes := match b with [] => None | _ => Some b end.
Definition raw (s : bytes) : aop := WriteString (Some s) (Z.of_nat (length s)).
Definition user_of (r : outcome (list ares * am)) : option (list ares * option (option bytes)) := match r with Ok (rs, m) => Some (rs, am_user m) | UB => None end.
Definition files_of (r : outcome (list ares * am)) : option (list ares * list bytes) := match r with Ok (rs, m) => Some (rs, am_files m) | UB => None end.
(** just opened for writing, with output buffer [id] *)
Definition opened (m : am) (id : nat) (memory : bool) : Prop :=
  am_trans m = None /\ am_raw m = false /\ am_type m = IO_WRITE /\ am_buf m = Buffer id memory [] /\
  if memory then am_memory m = Some id /\ am_x m = Some [] else am_memory m = None.
