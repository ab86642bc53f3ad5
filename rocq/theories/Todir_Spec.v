(** Specification of --to-dir (C62): the file of each source. *)
From Verif Require Import Base Text_Model Text_Spec Api_Model Writer_Model Writer_Spec Archive_Model Archive_Spec Input_Model Create_Model Create_Spec Todir_Model.
Local Open Scope N_scope.

(** the settings for a file: not an archive unless there are several units in it, and without hash *)
Definition in_file (several : bool) (a : archive) : archive :=
  with_options a (if several then N.setbit (N.clearbit (a_options a) 15) 14 else N.clearbit (N.clearbit (a_options a) 15) 14).
(** [file_of m a q s]: the content of the file of a source: a document with its units, or its text *)
Inductive file_of (m : cmode) (a : archive) (q : creq) (s : bytes) : Prop :=
| file_units xs : units_of q <> [] -> (m = Plain \/ match q with Parsed (RUnits (_ :: _)) _ => True | _ => False end) ->
    readings a (units_of q) xs -> s = document true (in_file (several q) a) xs -> file_of m a q s
| file_text : printed m q (Some s) -> file_of m a q s.
(** the source has a unit (an error, or a transformation without result, leaves none) *)
Definition has_unit (q : creq) : bool := match q with Parsed _ (Some _) => true | _ => false end.
(** [files creates m a qs ps l]: the files for the sources [qs], with directories and names [ps], those that can be created *)
Inductive files (creates : bytes -> bool) (m : cmode) (a : archive) : list creq -> list place -> list (bytes * bytes) -> Prop :=
| files_nil : files creates m a [] [] []
| files_none q p qs ps l : units_of q = [] -> scalar q = false -> files creates m a qs ps l -> files creates m a (q :: qs) (p :: ps) l
| files_one q d n s qs ps l : has_unit q = true -> file_of m a q s -> files creates m a qs ps l ->
    files creates m a (q :: qs) (At (Some d) (Some n) :: ps)
      ((if creates (d ++ txt "/" ++ n ++ txt ".xml") then [(d ++ txt "/" ++ n ++ txt ".xml", s)] else []) ++ l).
(** only source code *)
Definition no_srcml (ins : list (input_src * input)) : Prop := forallb (fun i => negb (is_srcml i)) (all_leaves ins) = true.
(** the request is accepted, no input is refused, and [t] is one of the orders of the calls of the threads *)
Definition starts_files (r : crequest) (ins : list (input_src * input)) (ps : list place) (t : list fop) : Prop :=
  exists cs ms warned filelist, setup r (map fst ins) = Ok (Some cs) /\ handle r ins = Some (ms, warned, false, filelist) /\ woven (c_mode r) ms ps [] t.

(** A call that changes a setting, writes a unit that has content, or writes a whole text. *)
Definition ok_call (c : aop) : Prop :=
  match c with Setting _ => True | WriteUnit (Some (ua, u)) => exists c, content ua u c | WriteString (Some s) n => n = Z.of_nat (length s) | _ => False end.
