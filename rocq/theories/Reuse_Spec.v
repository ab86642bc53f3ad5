(** What a caller of a unit object sees after any calls on it. *)
From Verif Require Import Base Text_Model Text_Spec Api_Model Writer_Model Writer_Spec Reuse_Model.
Local Open Scope N_scope.

(** the elements the parser delivers for a source, in terms of which the theorems are stated; encodings and digests are C strings *)
Definition delivers (e : environment) (t : N -> bytes -> bytes -> list tree) : Prop :=
  forall lang enc s, grammar e lang enc s = flat_map tokens_of (t lang enc s) /\ Forall good_tree (t lang enc s) /\
    (forall asked, clean_opt asked -> clean (settled e asked s)) /\ clean (digest e s).
(** a unit as srcml_unit_create and the setters leave it *)
Definition unparsed (u : uobj) : Prop :=
  uo_read_body u = false /\ uo_raw u = None /\ uo_fragment u = None /\ uo_src u = None.
Definition asked_for (a : archive) (enc : option bytes) : option bytes := match enc with Some x => Some x | None => a_src_encoding a end.
(** the parse a call makes, if it does: its language and source *)
Definition parse_of (e : environment) (a : archive) (enc : option bytes) (c : uop) : option (N * bytes) :=
  match c with
  | UParse lang (Some s) =>
      if lang =? 0 then None
      else match asked_for a enc with Some x => if supported e x then Some (lang, s) else None | None => Some (lang, s) end
  | _ => None
  end.
(** what is remembered of a history: the unit's encoding and hash, the elements of the latest parse, and the first text (not empty)
    srcml_unit_get_srcml_inner gave *)
Record seen := Seen { sn_encoding : option bytes; sn_hash : option bytes; sn_trees : option (list tree); sn_inner : option bytes }.
Definition content (pre : nat -> bytes) (ts : list tree) : bytes := flat_map (tree_xml pre) ts.
Definition see (e : environment) (t : N -> bytes -> bytes -> list tree) (a : archive) (pre : nat -> bytes) (k : seen) (c : uop) : seen :=
  match parse_of e a (sn_encoding k) c with
  | Some (lang, s) =>
      let enc := settled e (asked_for a (sn_encoding k)) s in
      Seen (Some enc)
           (match sn_hash k with Some h => Some h | None => if opt (a_options a) 15 then Some (digest e s) else None end)
           (Some (t lang enc s)) (sn_inner k)
  | None =>
      match c, sn_trees k, sn_inner k with
      | UInner, Some ts, None => Seen (sn_encoding k) (sn_hash k) (sn_trees k) (match content pre ts with [] => None | x => Some x end)
      | _, _, _ => k
      end
  end.
Definition see_all e t a pre k (h : list uop) : seen := fold_left (see e t a pre) h k.
Definition start_seen (u : uobj) : seen := Seen (u_encoding (uo_settings u)) (u_hash (uo_settings u)) None None.
(** calls that only ask *)
Definition asks (c : uop) : Prop := match c with UParse _ _ => False | _ => True end.
