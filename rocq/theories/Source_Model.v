(** Model of extract_src (unit_utilities.cpp:123-199): the source of a unit from its srcML. *)
From Verif Require Import Base Text_Model Api_Model.
Local Open Scope N_scope.

(** what the XML parser calls the handler with; [characters] may be called with any piece of text, references decoded.
    Attributes by local name with their values. The other callbacks are null. *)
Inductive xml_event :=
| XChars (s : bytes)
| XStart (local : bytes) (uri : option bytes) (al : list (bytes * bytes))
| XEnd.
(** 144-155 characters and ignorableWhitespace; 157-185 startElementNs. Both callers (srcml_unit.cpp:698, 1011) give no revision, so
    185-193 are never run. strcmp on a null URI, and attributes[3] of an element without attributes, are [UB]. *)
Definition extract_event (s : bytes) (e : xml_event) : outcome bytes :=
  match e with
  | XChars t => Ok (s ++ t)
  | XEnd => Ok s
  | XStart local uri al =>
      if beqb local (txt "escape") then
        match uri with
        | None => UB
        | Some u =>
            if beqb u SRC_URI then match al with [] => UB | (_, v) :: _ => Ok (s ++ [read_escape v]) end else Ok s
        end
      else Ok s
  end.
Fixpoint extract_events (s : bytes) (l : list xml_event) : outcome bytes :=
  match l with
  | [] => Ok s
  | e :: l => obind (extract_event s e) (fun s => extract_events s l)
  end.
(** 130-199 *)
Definition extract_src (l : list xml_event) : outcome bytes := extract_events [] l.
