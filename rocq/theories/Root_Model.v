(** Model of what reading a srcML document puts into the archive: srcml_reader_handler.hpp:229-322 (startDocument,
    startRoot), 507-530 (metaTag).  External: libxml2, which gives the attributes with local name, and the namespace
    declarations.  The texts have no NUL byte (XML has none), so c_str() is the whole value. *)
From Verif Require Import Base Text_Model Api_Model Writer_Model.
Local Open Scope N_scope.

(** the C library's atoi: blanks, a sign, digits (a number beyond int is undefined, here its value) *)
Fixpoint digits_value (v : Z) (s : bytes) : Z :=
  match s with
  | c :: r => if (48 <=? c) && (c <=? 57) then digits_value (10 * v + Z.of_N (c - 48))%Z r else v
  | [] => v
  end.
Definition is_blank (c : N) : bool := (c =? 32) || ((9 <=? c) && (c <=? 13)).
Fixpoint atoi (s : bytes) : Z :=
  match s with
  | [] => 0%Z
  | c :: r => if is_blank c then atoi r
              else if c =? 45 then (- digits_value 0 r)%Z
              else if c =? 43 then digits_value 0 r else digits_value 0 s
  end.
(** int to size_t *)
Definition to_size (z : Z) : N := Z.to_N (z mod 2 ^ 64).

(** 279-300: the option names, separated by commas; [fuel]: the value gets shorter each time *)
Definition option_bit (name : bytes) : N :=
  if beqb name (txt "XMLDECL") then 2 ^ 1
  else if beqb name (txt "NAMESPACEDECL") then 2 ^ 8
  else if beqb name (txt "CPP_TEXT_ELSE") then 2 ^ 4
  else if beqb name (txt "CPP_MARKUP_IF0") then 2 ^ 5
  else if beqb name (txt "LINE") then 2 ^ 10 else 0.
Fixpoint read_options (fuel : nat) (value : bytes) (o : N) : N :=
  match fuel, value with
  | S fuel, _ :: _ =>
      match strchr value 44 with
      | None => N.lor o (option_bit value)
      | Some p => read_options fuel (skipn (S p) value) (N.lor o (option_bit (firstn p value)))
      end
  | _, _ => o
  end.

(** what is in the archive object: the settings and the attributes *)
Notation target := (archive * list bytes)%type.
Definition with_revision (a : archive) (r : option bytes) : archive :=
  Archive (a_src_encoding a) (a_encoding a) (a_language a) (a_url a) (a_version a) r
    (a_options a) (a_tabstop a) (a_namespaces a) (a_pi a) (a_extensions a) (a_macros a) (a_revision_number a).
(** 258-308: one attribute of the root *)
Definition root_attribute (t : target) (p : bytes * bytes) : target :=
  let (a, al) := t in let (n, v) := p in
  if beqb n (txt "timestamp") then t
  else if beqb n (txt "language") then t
  else if beqb n (txt "revision") then (with_revision a (Some v), al)
  else if beqb n (txt "filename") then t
  else if beqb n (txt "url") then (snd (step a (SetAttr AUrl (Some v))), al)
  else if beqb n (txt "version") then (snd (step a (SetAttr AVersion (Some v))), al)
  else if beqb n (txt "tabs") then (snd (step a (SetTabstop (to_size (atoi v)))), al)
  else if beqb n (txt "options") then (with_options a (read_options (length v) v (a_options a)), al)
  else if beqb n (txt "hash") then t
  else (a, al ++ [n; v]).
(** 311-319: one namespace declaration *)
Definition root_namespace (a : archive) (n : option bytes * bytes) : archive :=
  snd (step a (RegisterNamespace (Some (match fst n with Some p => p | None => [] end)) (Some (uri_normalize (snd n))))).
(** 246-322 startRoot; [archive]: the context says it is an archive *)
Definition start_root (archive : bool) (nss : list (option bytes * bytes)) (ats : list (bytes * bytes)) (t : target) : target :=
  let a := fst t in
  let a := if archive then a else with_options a (N.ldiff (a_options a) OPT_ARCHIVE) in
  let t := fold_left root_attribute ats (a, snd t) in
  (fold_left root_namespace nss (fst t), snd t).

(** 507-530 metaTag, with the attributes of the element by local name *)
Definition values_of (n : bytes) (ats : list (bytes * bytes)) : bytes :=
  concat (map snd (filter (fun p => beqb (fst p) n) ats)).
Definition meta_tag (name : bytes) (ats : list (bytes * bytes)) (a : archive) : archive :=
  if beqb name (txt "macro-list") then
    let token := values_of (txt "token") ats in
    let type := values_of (txt "type") ats in
    match token, type with
    | _ :: _, _ :: _ => with_macros a (a_macros a ++ [token; type])
    | _, _ => a
    end
  else a.
(** 229-232 startDocument; [encoding]: of the document, null if not given *)
Definition start_document_read (encoding : option bytes) (a : archive) : archive :=
  snd (step a (SetAttr XmlEncoding (Some (default_to encoding (txt "UTF-8"))))).
