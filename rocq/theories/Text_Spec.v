(** Specifications for the text-level properties, independent of the model's code. *)
From Verif Require Import Base.
Local Open Scope N_scope.

(** ** XML character data *)
(** [xml_text e d]: [e] is character data with no raw '<' or '>' in which every '&' starts one of
    the entities &lt; &gt; &amp;, and [d] is its value. *)
Inductive xml_text : bytes -> bytes -> Prop :=
| xt_nil : xml_text [] []
| xt_plain c e d : c <> 60 -> c <> 62 -> c <> 38 -> xml_text e d -> xml_text (c :: e) (c :: d)
| xt_lt e d : xml_text e d -> xml_text (txt "&lt;" ++ e) (60 :: d)
| xt_gt e d : xml_text e d -> xml_text (txt "&gt;" ++ e) (62 :: d)
| xt_amp e d : xml_text e d -> xml_text (txt "&amp;" ++ e) (38 :: d).

(** ** Decimal numerals *)
Definition dec_value (l : bytes) : N := fold_left (fun a c => 10 * a + (c - 48)) l 0.
(** the decimal numeral of [n]: digits only, that value, no superfluous leading zero *)
Definition decimal (l : bytes) (n : N) : Prop :=
  l <> [] /\ Forall (fun c => 48 <= c <= 57) l /\ dec_value l = n /\ (hd 0 l = 48 -> l = [48]).

(** ** Lines *)
Definition no_byte (b : N) (l : bytes) : Prop := Forall (fun c => c <> b) l.
(** [src] consists of the terminated lines [full] and the unterminated rest *)
Definition lines_of (src : bytes) (full : list bytes) (rest : bytes) : Prop :=
  src = concat (map (fun l => l ++ [10]) full) ++ rest /\ Forall (no_byte 10) full /\ no_byte 10 rest.
(** number of lines: the terminated ones and a final unterminated one *)
Definition line_count (src : bytes) (n : nat) : Prop :=
  exists full rest, lines_of src full rest /\
    n = (length full + match rest with [] => 0 | _ => 1 end)%nat.

(** ** srcDiff fragments *)
(** where a piece of a srcDiff belongs: its innermost enclosing diff element *)
Inductive part := Both | OnlyOriginal | OnlyModified.
Definition belongs (revision : nat) (p : part) : bool :=
  match p with Both => true | OnlyOriginal => Nat.eqb revision 0 | OnlyModified => Nat.eqb revision 1 end.

(** the diff elements: <diff:common ...>, <diff:delete ...>, <diff:insert ...> and any other diff name
    (e.g. diff:ws), which counts as common; [b] is the rest of the tag *)
Definition diff_name (p : part) (name : bytes) : Prop :=
  match p with
  | OnlyOriginal => name = txt "delete"
  | OnlyModified => name = txt "insert"
  | Both => name = txt "common" \/ name = txt "ws"
  end.
(** the name ends where the tag ends or at a space *)
Definition attrs_ok (a : bytes) : Prop := no_byte 62 a /\ (a = [] \/ exists r, a = 32 :: r) /\
  (forall r, a <> r ++ txt "/").   (* not an empty-element tag *)

(** a tag that is not a diff tag, given by what is between '<' and '>' *)
Definition plain_tag (b : bytes) : Prop :=
  no_byte 62 b /\ (forall r, b <> txt "diff:" ++ r) /\ (forall r, b <> txt "/diff:" ++ r).

(** [srcdiff rev txtonly p f k]: [f] is a well-nested srcDiff fragment inside part [p], and [k] what belongs
    to revision [rev] of it: the text and (unless only text is wanted) the non-diff tags. *)
Inductive srcdiff (rev : nat) (text_only : bool) : part -> bytes -> bytes -> Prop :=
| sd_nil p : srcdiff rev text_only p [] []
| sd_text p t f k : no_byte 60 t -> srcdiff rev text_only p f k ->
    srcdiff rev text_only p (t ++ f) ((if belongs rev p then t else []) ++ k)
| sd_tag p b f k : plain_tag b -> srcdiff rev text_only p f k ->
    srcdiff rev text_only p ((60 :: b ++ [62]) ++ f)
      ((if belongs rev p && negb text_only then 60 :: b ++ [62] else []) ++ k)
| sd_diff p q name a c kc f k : diff_name q name -> attrs_ok a ->
    srcdiff rev text_only q c kc -> srcdiff rev text_only p f k ->
    srcdiff rev text_only p
      (txt "<diff:" ++ name ++ a ++ [62] ++ c ++ txt "</diff:" ++ name ++ [62] ++ f) (kc ++ k).

Definition ends_with_tag (f : bytes) : Prop :=
  f = [] \/ exists g b, f = g ++ [60] ++ b ++ [62] /\ no_byte 60 b /\ no_byte 62 b.

(** [t] is the text after the last tag of [f] *)
Definition trailing_text (f t : bytes) : Prop :=
  no_byte 60 t /\ (f = t \/ exists g, f = g ++ [62] ++ t).

(** ** Name/value attributes *)
(** value of the last occurrence of a name *)
Fixpoint last_value (name : bytes) (l : list (bytes * bytes)) : option bytes :=
  match l with
  | [] => None
  | (n, v) :: t => match last_value name t with
                   | Some w => Some w
                   | None => if list_eq_dec N.eq_dec n name then Some v else None
                   end
  end.
(** names in order of first occurrence *)
Fixpoint first_seen (seen : list bytes) (l : list bytes) : list bytes :=
  match l with
  | [] => []
  | n :: t => if in_dec (list_eq_dec N.eq_dec) n seen then first_seen seen t else n :: first_seen (n :: seen) t
  end.
Definition flatten (l : list (bytes * bytes)) : list bytes := flat_map (fun p => [fst p; snd p]) l.
(** the attributes with a meaning of their own, and those neither stored nor kept *)
Definition known_names : list bytes := map txt ["timestamp"; "hash"; "language"; "revision"; "filename"; "url"; "version"]%string.
Definition ignored_names : list bytes := map txt ["tabs"; "options"]%string.
Definition others (l : list (bytes * bytes)) : list (bytes * bytes) :=
  filter (fun p => if in_dec (list_eq_dec N.eq_dec) (fst p) (known_names ++ ignored_names) then false else true) l.
Definition or_else (a b : option bytes) : option bytes := match a with Some v => Some v | None => b end.
