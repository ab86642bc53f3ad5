(** Model of --cat: one unit with the content of all sources (srcml_write.cpp:163-212, create_srcml.cpp:350-353), on top of the archive
    (Archive_Model.v) and of the parse of a unit (Reuse_Model.v). *)
From Verif Require Import Base Text_Model Api_Model Writer_Model Archive_Model Archive_Spec Reuse_Model.
Local Open Scope N_scope.

(** what the worker made of a source: a unit, with the settings of its archive and the language srcml_unit_parse_memory finds for a clone of
    it (C18; 0: none); or nothing (an error, or no language: srcml_write.cpp:47-63 and 231-240 write no srcML) *)
Record csource := CSource { cs_archive : archive; cs_unit : uobj; cs_lang : N }.
(** srcml_archive.cpp:140-163, of the output archive: settings and attributes, not open *)
Definition copy_of (m : am) : am := AM (am_a m) (am_attributes m) IO_INVALID NoBuffer None false 0 None None None [] None.
(** srcml_write.cpp:182-192: the clone of the unit, parsed from an empty text, in a document of its own; its text in memory. The status of the
    parse is not looked at: without one the clone is not written. [None]: a null pointer. *)
Definition empty_unit (e : environment) (s : csource) : outcome (status * wunit) :=
  unit_parse e (cs_archive s) (WUnitObj (unit_clone (cs_unit s)) None) (cs_lang s) (Some []).
Definition own_document (e : environment) (m : am) (s : csource) : outcome (option bytes) :=
  obind (empty_unit e s) (fun r =>
    obind (arun (copy_of m) [Setting EnableSolitary; Setting DisableHash; OpenMemory true; WriteUnit (Some (cs_archive s, wu (snd r))); Close]) (fun x =>
      Ok (match am_user (snd x) with Some b => b | None => None end))).
(** srcml_write.cpp:193-194; the size is below 2^31 *)
Definition start_calls (b : option bytes) : list aop :=
  [WriteString b (Z.of_nat (length (match b with Some b => b | None => [] end)) - 51); raw [62]].
(** srcml_write.cpp:198-203 *)
Definition inner_calls (s : bytes) : list aop := raw s :: match s with [] => [] | _ => if last s 0 =? 10 then [] else [raw [10]] end.
(** the writing thread, for all sources in order (C25); [first] is the static variable *)
Fixpoint cat_calls (e : environment) (m : am) (first : bool) (us : list (option csource)) : outcome (list aop) :=
  match us with
  | [] => Ok []
  | None :: us => cat_calls e m first us
  | Some s :: us =>
      obind (if first then obind (own_document e m s) (fun b => Ok (start_calls b)) else Ok []) (fun st =>
        obind (inner (cs_unit s)) (fun x => obind (cat_calls e m false us) (fun r => Ok (st ++ inner_calls x ++ r))))
  end.
(** create_srcml.cpp:350-361: the end tag, and the archive is closed ([m]: the output archive, set up and open for writing) *)
Definition cat (e : environment) (m : am) (us : list (option csource)) : outcome (list ares * am) :=
  obind (cat_calls e m true us) (fun cs => arun m (cs ++ [raw (txt "</unit>" ++ [10]); Close])).
