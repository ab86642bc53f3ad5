(** Vocabulary for C32. *)
From Verif Require Import Base Text_Model Text_Spec Writer_Model Pretty_Model.

(** A section of a format is a sequence of items: text, a percent sign, a field, the namespaces. *)
Inductive ns_part := NsAll | NsUri | NsPrefix.
Inductive fitem := FText (s : bytes) | FPercent | FField (c : N) | FSpaces (p : ns_part).
Definition ns_name (p : ns_part) : bytes := match p with NsAll => txt "N" | NsUri => txt "N:u" | NsPrefix => txt "N:p" end.
Definition frender_item (i : fitem) : bytes :=
  match i with FText s => s | FPercent => txt "%%" | FField c => [37%N; c] | FSpaces p => 37%N :: ns_name p end.
Definition frender (l : list fitem) : bytes := concat (map frender_item l).
(** [next]: the text that follows.  What "%%" may be followed by, and that %s is none of the fields: see the
    refutations. *)
Definition begins_with (s p : bytes) : Prop := exists r, s = p ++ r.
Definition fitem_ok (allowed : bytes) (i : fitem) (next : bytes) : Prop :=
  match i with
  | FText s => s <> [] /\ no_byte 37 s
  | FPercent => next = [] \/ begins_with next (txt "%") \/ begins_with next (txt "s")
  | FField c => In c allowed /\ c <> 37%N /\ c <> 115%N /\ c <> 78%N
  | FSpaces p => In 78%N allowed /\
      match p with
      | NsAll => ~ begins_with next (txt ":u") /\ ~ begins_with next (txt ":p")
      | NsUri => ~ begins_with next (txt ":p")
      | NsPrefix => True
      end
  end.
Fixpoint fitems_ok (allowed : bytes) (l : list fitem) : Prop :=
  match l with [] => True | i :: r => fitem_ok allowed i (frender r) /\ fitems_ok allowed r end.
(** The fields of it. *)
Definition is_field (i : fitem) : bool := match i with FField _ | FSpaces _ => true | _ => false end.
Definition fields (l : list fitem) : list fitem := filter is_field l.
(** What each item shows: [value c] is the value of a field, if it has one. *)
Fixpoint spaced (l : list bytes) : bytes := match l with [] => [] | [x] => x | x :: r => x ++ txt " " ++ spaced r end.
Definition shows (value : N -> option bytes) (spaces : ns_part -> list bytes) (i : fitem) : bytes :=
  match i with
  | FText s => s
  | FPercent => txt "%"
  | FField c => match value c with Some v => v | None => [] end
  | FSpaces p => spaced (spaces p)
  end.
(** What a section shows: its items in order; but nothing when its only field has no value. *)
Definition lone_null (value : N -> option bytes) (l : list fitem) : bool :=
  match fields l with [FField c] => match value c with None => true | Some _ => false end | _ => false end.
Definition section_shows (value : N -> option bytes) (spaces : ns_part -> list bytes) (l : list fitem) : bytes :=
  if lone_null value l then [] else concat (map (shows value spaces) l).

(** * The values *)
(** The fields of the archive, of a unit, of the [i]th unit in the archive, and of the whole. *)
Definition archive_value (a : ameta) (c : N) : option bytes :=
  if (c =? 83)%N then ma_encoding a else if (c =? 85)%N then ma_url a else if (c =? 86)%N then ma_version a
  else if (c =? 88)%N then ma_xml a else None.
Definition unit_value (a : ameta) (u : umeta) (i : nat) (c : N) : option bytes :=
  if (c =? 102)%N then um_filename u else if (c =? 104)%N then um_hash u else if (c =? 108)%N then um_language u
  else if (c =? 116)%N then um_timestamp u else if (c =? 118)%N then um_version u
  else if (c =? 105)%N then Some (dec_of (N.of_nat i)) else archive_value a c.
Definition total_value (a : ameta) (c : N) : option bytes :=
  if (c =? 67)%N then Some (dec_of (N.of_nat (length (ma_units a)))) else archive_value a c.
Definition space_values (a : ameta) (p : ns_part) : list bytes :=
  map (fun n : bytes * bytes => let (prefix, uri) := n in
    match p with NsUri => uri | NsPrefix => prefix | NsAll => match prefix with [] => txt "xmlns=" ++ uri | _ => txt "xmlns:" ++ prefix ++ txt "=" ++ uri end end) (ma_namespaces a).
Definition no_spaces (p : ns_part) : list bytes := [].
(** The sections that work: text with at least one field, of those that are filled in (%F, %s, and %N
    outside of the body are not, see the refutations). *)
Definition archive_fields : bytes := txt "SUVX".
Definition unit_fields : bytes := txt "fhiltvSUVXN".
Definition total_fields : bytes := txt "CSUVX".
Definition section_ok (allowed : bytes) (l : list fitem) : Prop := fitems_ok allowed l /\ (fields l = [] -> l = []).
(** Every unit in its turn. *)
Fixpoint each_unit (a : ameta) (l : list fitem) (i : nat) (us : list umeta) : bytes :=
  match us with [] => [] | u :: us => section_shows (unit_value a u i) (space_values a) l ++ each_unit a l (S i) us end.
Definition no_brace (t : bytes) : Prop := no_byte 123 t /\ no_byte 125 t.

(** * The queries *)
(** A value on a line, by itself if it is the only query, else with its name; a section with a single value
    that is missing shows nothing. *)
Definition line (one : bool) (x : bytes * option bytes) : bytes :=
  let v := match snd x with Some v => v | None => [] end in
  if one then v ++ [10%N] else fst x ++ txt "=""" ++ v ++ txt """" ++ [10%N].
Definition show_lines (one : bool) (l : list (bytes * option bytes)) : bytes :=
  match l with [(_, None)] => [] | _ => concat (map (line one) l) end.
Definition asked_header (a : ameta) (q : queries) : list (bytes * option bytes) :=
  (if q_encoding q then [(txt "encoding", ma_xml a)] else []) ++ (if q_url q then [(txt "url", ma_url a)] else []).
Definition asked_unit (q : queries) (u : umeta) : list (bytes * option bytes) :=
  (if q_filename q then [(txt "filename", um_filename u)] else []) ++ (if q_language q then [(txt "language", um_language u)] else []) ++
  (if q_version q then [(txt "version", um_version u)] else []) ++ (if q_hash q then [(txt "hash", um_hash u)] else []) ++
  (if q_timestamp q then [(txt "timestamp", um_timestamp u)] else []).
(** How many queries there are: for the archive and for a unit. *)
Definition number_asked (q : queries) : nat :=
  length (asked_header (AMeta None None None None [] []) q) + length (asked_unit q (UMeta None None None None None None)).
(** The letters that may come after a percent sign in each section (others, but for %s, are errors). *)
Definition header_fields : bytes := txt "FNSUVX".
Definition body_fields : bytes := txt "FNSUVXfhilstv".
Definition footer_fields : bytes := txt "CFNSUVX".
