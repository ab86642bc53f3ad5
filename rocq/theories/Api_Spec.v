(** Specifications for the settings API, in terms of the history of calls. *)
From Verif Require Import Base Text_Spec Api_Model.
Local Open Scope N_scope.

Definition bytes_dec := list_eq_dec N.eq_dec.

(** the last element of a history satisfying/producing something *)
Fixpoint latest {A B} (f : A -> option B) (h : list A) : option B :=
  match h with
  | [] => None
  | x :: t => match latest f t with Some b => Some b | None => f x end
  end.

(** ** C11 *)
Definition languages : list bytes := map txt ["C"; "C++"; "C#"; "Java"; "Objective-C"]%string.
(** a trailing .gz is ignored (unless it is the whole name); the extension is what follows the last dot *)
Definition extension_of (path ext : bytes) : Prop :=
  exists stem base,
    ((path = stem ++ txt ".gz" /\ stem <> []) \/
     (path = stem /\ forall s, s <> [] -> path <> s ++ txt ".gz")) /\
    stem = base ++ [46] ++ ext /\ no_byte 46 ext.
(** the language given to an extension by one call *)
Definition registers (ext : bytes) (c : call) : option bytes :=
  match c with
  | RegisterExtension (Some e) (Some l) =>
      if bytes_dec e ext then (if in_dec bytes_dec l languages then Some l else None) else None
  | _ => None
  end.
(** the documented built-in table *)
Definition builtin (ext : bytes) : option bytes :=
  if in_dec bytes_dec ext (map txt ["c"; "h"; "i"]%string) then Some (txt "C")
  else if in_dec bytes_dec ext (map txt ["cpp"; "CPP"; "cp"; "hpp"; "cxx"; "hxx"; "cc"; "hh"; "c++"; "h++"; "C"; "H"; "tcc"; "ii"]%string)
       then Some (txt "C++")
  else if in_dec bytes_dec ext (map txt ["java"; "aj"]%string) then Some (txt "Java")
  else if in_dec bytes_dec ext (map txt ["cs"]%string) then Some (txt "C#")
  else None.

(** ** C12 *)
(** what a call does to the public option bit [i] *)
Definition bit_effect (i : N) (c : call) : option bool :=
  match c with
  | SetOptions o => Some (N.testbit o i)
  | EnableOption o => if N.testbit o i then Some true else None
  | DisableOption o => if N.testbit o i then Some false else None
  | RegisterNamespace (Some _) (Some u) =>
      if bytes_dec u (txt "http://www.srcML.org/srcML/cpp") then (if i =? 3 then Some true else None)
      else if bytes_dec u (txt "http://www.srcML.org/srcML/position") then (if i =? 2 then Some true else None)
      else None
  | _ => None
  end.
Definition solitary_effect (c : call) : option bool :=
  match c with EnableSolitary => Some true | DisableSolitary => Some false | _ => None end.
Definition hash_effect (c : call) : option bool :=
  match c with EnableHash => Some true | DisableHash => Some false | _ => None end.
Definition is_set_options (c : call) : Prop := match c with SetOptions _ => True | _ => False end.
Definition dflt {A} (d : A) (o : option A) : A := match o with Some x => x | None => d end.

(** ** C13 *)
Definition macro_regs (h : list call) : list (bytes * bytes) :=
  flat_map (fun c => match c with RegisterMacro (Some t) (Some y) => [(t, y)] | _ => [] end) h.

(** ** C14: registrations as (URI, prefix) *)
Definition ns_regs (h : list call) : list (bytes * bytes) :=
  flat_map (fun c => match c with RegisterNamespace (Some p) (Some u) => [(u, p)] | _ => [] end) h.
Definition uris (a : archive) : list bytes := map ns_uri (a_namespaces a).
(** boost finds some entry when there is one, and only entries of the container *)
Definition finder (pick : list ns -> option ns) : Prop :=
  forall l, match pick l with Some n => In n l | None => l = [] end.

(** ** C16 *)
(** the part of a URI after the srcML or sdml prefix, or all of it *)
Definition suffix_of (u s : bytes) : Prop :=
  u = txt "http://www.srcML.org/" ++ s \/ u = txt "http://www.sdml.info/" ++ s \/
  (u = s /\ (forall r, u <> txt "http://www.srcML.org/" ++ r) /\ (forall r, u <> txt "http://www.sdml.info/" ++ r)).

(** ** C17 *)
Definition sets (k : sattr) (c : call) : option (option bytes) :=
  match c with
  | SetAttr k' v => if (match k, k' with
                        | SrcEncoding, SrcEncoding | XmlEncoding, XmlEncoding | ALanguage, ALanguage
                        | AUrl, AUrl | AVersion, AVersion => true
                        | _, _ => false end) then Some v else None
  | _ => None
  end.
Definition usets (k : uattr) (c : ucall) : option (option bytes) :=
  match c with
  | USet k' v => if (match k, k' with
                     | USrcEncoding, USrcEncoding | ULanguage, ULanguage | UFilename, UFilename
                     | UVersion, UVersion | UTimestamp, UTimestamp | UHash, UHash => true
                     | _, _ => false end) then Some v else None
  | _ => None
  end.
Definition sets_eol (c : ucall) : option N := match c with USetEol e => if e <=? 3 then Some e else None | _ => None end.
Definition sets_tabstop (c : call) : option N := match c with SetTabstop n => Some n | _ => None end.
Definition sets_revision (c : call) : option N :=
  match c with SetRevision n => if n <=? 1 then Some n else None | _ => None end.

(** ** C33: the calls of a history addressed to one handle *)
Definition calls_on (h : nat) (hs : list wcall) : list call :=
  flat_map (fun c => match c with WArchive k c => if Nat.eq_dec k h then [c] else [] | _ => [] end) hs.
Definition ucalls_on (h : nat) (hs : list wcall) : list ucall :=
  flat_map (fun c => match c with WUnit k c => if Nat.eq_dec k h then [c] else [] | _ => [] end) hs.
(** closed: no input or output in progress, nothing owned, no error *)
Definition closed (o : aobj) : Prop :=
  o_type o = IO_INVALID /\ o_translator o = None /\ o_reader o = None /\ o_output o = None /\ o_xbuffer o = None /\
  o_buffer o = None /\ o_size o = None /\ o_raw o = false /\ o_error o = ([], 0%Z).
(** unread: no content, nothing owned, no error *)
Definition unread (u : uobj) : Prop :=
  uo_output u = None /\ uo_translator u = None /\ uo_read_header u = false /\ uo_read_body u = false /\ uo_srcml u = [] /\
  uo_src u = None /\ uo_raw u = None /\ uo_fragment u = None /\ uo_loc u = (-1)%Z /\ uo_error u = ([], 0%Z).
