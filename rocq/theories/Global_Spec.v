(** Specification of srcml() (C60): the global settings, the direction, the unit written and the source written. *)
From Verif Require Import Base Text_Model Text_Spec Api_Model Api_Spec Writer_Model Writer_Spec Archive_Model Archive_Spec Root_Spec Reuse_Model Handoff_Model Handoff_Spec Sax_Model Sax_Spec Back_Spec Global_Model.
Local Open Scope N_scope.

(** ** Global settings *)
(** the calls on an archive, and on a unit, that a history of global setters stands for *)
Definition archive_call (c : gcall) : list Api_Model.call :=
  match c with
  | GAttr k v => [SetAttr k v]
  | GOptions o => [SetOptions o] | GEnable o => [EnableOption o] | GDisable o => [DisableOption o]
  | GTabstop n => [SetTabstop n] | GExtension e l => [RegisterExtension e l] | GNamespace p u => [RegisterNamespace p u]
  | GRevision n => [SetRevision n]
  | GFilename _ | GTimestamp _ | GEol _ | GInstruction _ _ => []
  end.
Definition unit_call (c : gcall) : list ucall :=
  match c with GFilename v => [USet UFilename v] | GTimestamp v => [USet UTimestamp v] | GEol e => [USetEol e] | _ => [] end.
Definition instruction_set (c : gcall) : option (bytes * bytes) := match c with GInstruction (Some t) (Some d) => Some (t, d) | _ => None end.
(** no null instruction (undefined, C17) *)
Definition defined (c : gcall) : Prop := match c with GInstruction (Some _) (Some _) => True | GInstruction _ _ => False | _ => True end.
(** archives no getter tells apart *)
Definition alike (a b : archive) : Prop :=
  (forall k, get_attr a k = get_attr b k) /\ a_options a = a_options b /\ a_tabstop a = a_tabstop b /\ a_namespaces a = a_namespaces b /\ a_macros a = a_macros b /\
  a_revision a = a_revision b /\ a_revision_number a = a_revision_number b /\ forall f, check_extension a f = check_extension b f.

(** what was set last; [None] if nothing, or null *)
Definition last_set {A} (f : gcall -> option (option A)) (h : list gcall) : option A := match latest f h with Some v => v | None => None end.
Definition same_attr (k k' : sattr) : bool :=
  match k, k' with
  | SrcEncoding, SrcEncoding | XmlEncoding, XmlEncoding | ALanguage, ALanguage | AUrl, AUrl | AVersion, AVersion => true
  | _, _ => false
  end.
Definition attr_set (k : sattr) (h : list gcall) : option bytes := last_set (fun c => match c with GAttr k' v => if same_attr k k' then Some v else None | _ => None end) h.
Definition filename_set (h : list gcall) : option bytes := last_set (fun c => match c with GFilename v => Some v | _ => None end) h.
Definition timestamp_set (h : list gcall) : option bytes := last_set (fun c => match c with GTimestamp v => Some v | _ => None end) h.
Definition language_registered (ext : bytes) (h : list gcall) : option bytes :=
  latest (fun c => match c with GExtension (Some e) (Some l) => if bytes_dec e ext then (if in_dec bytes_dec l languages then Some l else None) else None | _ => None end) h.
(** the language of a file by its name *)
Definition named_language (h : list gcall) (f : bytes) (l : option bytes) : Prop :=
  (exists ext, extension_of f ext /\ l = or_else (language_registered ext h) (builtin ext)) \/ ((forall ext, ~ extension_of f ext) /\ l = None).

(** ** The direction *)
Definition same_letters (s t : bytes) : Prop := Forall2 (fun c d => c = d \/ (97 <= d <= 122 /\ c + 32 = d)) s t.
(** a name that ends in .xml after something, or in .srcml; upper or lower case *)
Definition srcml_name (s : bytes) : Prop := exists base ext, s = base ++ [46] ++ ext /\ (same_letters ext (txt "xml") /\ base <> [] \/ same_letters ext (txt "srcml")).

(** ** The unit *)
(** the archive a program would write it with: with the same settings, for one unit *)
Definition settings_of (h : list gcall) : archive := Api_Model.run (flat_map archive_call h ++ [EnableSolitary]) archive_create.
(** settings XML can carry; srcml_set_options (C12, C21), namespaces, instructions and the revision are not among them *)
Definition ordinary (c : gcall) : Prop :=
  match c with
  | GAttr _ v | GFilename v | GTimestamp v => xml_chars_opt v
  | GTabstop n => n < 2 ^ 64
  | GOptions _ | GNamespace _ _ | GInstruction _ _ | GRevision _ => False
  | _ => True
  end.
(** the parser delivers [ts] for the file [src] in the language [l] after the history [h] *)
Definition parses (sys : system) (h : list gcall) (l src : bytes) (ts : list tree) : Prop :=
  let e := s_env sys in let asked := attr_set SrcEncoding h in
  (forall x, asked = Some x -> supported e x = true) /\ xml_chars (settled e asked src) /\ xml_chars (digest e src) /\
  grammar e (getLanguage l) (settled e asked src) src = flat_map tokens_of ts.
(** the attributes of the unit *)
Definition as_set (sys : system) (h : list gcall) (input l src : bytes) (v : uobj) : Prop :=
  let s := uo_settings v in
  u_filename s = or_else (filename_set h) (Some input) /\ u_version s = attr_set AVersion h /\ u_timestamp s = timestamp_set h /\ uo_url v = attr_set AUrl h /\
  u_language s = attr_set ALanguage h /\ uo_derived v = getLanguage l /\
  u_encoding s = Some (settled (s_env sys) (attr_set SrcEncoding h) src) /\ u_hash s = Some (digest (s_env sys) src).
(** the language used: the one set if there is such a language, otherwise that of the name *)
Definition used_language (h : list gcall) (by_name : bytes) : bytes :=
  match attr_set ALanguage h with Some l => if in_dec bytes_dec l languages then l else by_name | None => by_name end.

(** ** Reading back *)
(** [r]: what reading one unit of the document [doc] gives, however libxml2 reports it and in whatever order the threads run; [decl]: its XML declaration *)
Definition read_from (decl doc : bytes) (r : result (list (bytes * bytes)) ubody) : Prop :=
  exists d evs err ls s, doc = decl ++ d ++ [10] /\ reported [] d evs /\ calm ls /\ steps sax ls (open (parse evs err) [Read]) = Some s /\ cl s = CGone /\ results s = [r].
