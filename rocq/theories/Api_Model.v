(** Model of the archive and unit settings of the libsrcml API: options, extensions, macros, namespaces,
    string attributes, language decision. *)
From Verif Require Import Base Text_Model.
Local Open Scope N_scope.

(** ** Status codes (srcml.h:71-87) *)
Inductive status := ST_OK | ST_ERROR | ST_INVALID_ARGUMENT | ST_INVALID_INPUT | ST_INVALID_IO_OPERATION
  | ST_IO_ERROR | ST_UNINITIALIZED_UNIT | ST_UNSET_LANGUAGE | ST_NO_TRANSFORMATION.

(** ** Languages *)
(** parser/Language.hpp:82-116, Language.cpp:29-36: names and numbers, in table order *)
Definition lang2int : list (bytes * N) :=
  [(txt "C", 1); (txt "C++", 2); (txt "Java", 4); (txt "C#", 8); (txt "Objective-C", 17); ([], 0)].
(** Language.hpp:159-166 *)
Fixpoint find_by_name (t : list (bytes * N)) (s : bytes) : N :=
  match t with [] => 0 | (n, v) :: t => if beqb n s then v else find_by_name t s end.
Definition getLanguage (s : bytes) : N := find_by_name lang2int s.
(** Language.hpp:175-182 *)
Fixpoint find_by_number (t : list (bytes * N)) (l : N) : bytes :=
  match t with [] => [] | (n, v) :: t => if v =? l then n else find_by_number t l end.
Definition getLanguageString (l : N) : bytes := find_by_number lang2int l.
(** libsrcml.cpp:710-733 [srcml_check_language] ([None]: null pointer) *)
Definition langs : list bytes := map txt ["C"; "C++"; "C#"; "Java"; "Objective-C"]%string.
Fixpoint check_loop (ls : list bytes) (s : bytes) : N :=
  match ls with [] => 0 | l :: t => if beqb s l then getLanguage s else check_loop t s end.
Definition check_language (s : option bytes) : N :=
  match s with None => 0 | Some s => check_loop langs s end.

(** ** Extension registry *)
Definition registry := list (bytes * N).
(** language_extension_registry.cpp:163-191, also the constructor's table 31-53 *)
Definition standard_extensions : registry :=
  [(txt "c", 1); (txt "h", 1); (txt "i", 1);
   (txt "cpp", 2); (txt "CPP", 2); (txt "cp", 2); (txt "hpp", 2); (txt "cxx", 2); (txt "hxx", 2); (txt "cc", 2);
   (txt "hh", 2); (txt "c++", 2); (txt "h++", 2); (txt "C", 2); (txt "H", 2); (txt "tcc", 2); (txt "ii", 2);
   (txt "java", 4); (txt "aj", 4); (txt "cs", 8)].
(** language_extension_registry.cpp:99-109 register_user_ext with a language number *)
Definition register_int (r : registry) (ext : bytes) (l : N) : bool * registry :=
  if l =? 0 then (false, r) else (true, r ++ [(ext, l)]).
(** language_extension_registry.cpp:120-129 register_user_ext with a language name *)
Definition register_name (r : registry) (ext lang : bytes) : bool * registry :=
  let n := getLanguage lang in
  if n =? 0 then (false, r) else (true, snd (register_int r ext n)).

(** std::string::find_last_of("."): the part after the last '.' *)
Fixpoint after_last_dot (s : bytes) : option bytes :=
  match s with
  | [] => None
  | c :: t => match after_last_dot t with
              | Some e => Some e
              | None => if c =? 46 then Some t else None
              end
  end.
(** language_extension_registry.cpp:71-90 [get_language_extension] *)
Definition get_language_extension (path : bytes) : option bytes :=
  let path := if (3 <? length path)%nat && beqb (skipn (length path - 3) path) (txt ".gz")
              then firstn (length path - 3) path else path in
  after_last_dot path.
(** language_extension_registry.cpp:147-152: the downward search from index [i-1]; an index outside
    the vector is [UB]. use_cpp_for_c is false: nothing in the library calls c_is_cpp. *)
Fixpoint search_down (r : registry) (ext : bytes) (i : nat) : outcome N :=
  match i with
  | O => Ok 0
  | S j => match nth_error r j with
           | None => UB
           | Some (e, l) => if beqb e ext then Ok l else search_down r ext j
           end
  end.
(** language_extension_registry.cpp:139-155 [get_language_from_filename] *)
Definition language_from_filename (r : registry) (path : bytes) : outcome N :=
  match get_language_extension path with
  | None => Ok 0
  | Some ext => search_down r ext (length r)
  end.

(** ** Namespaces (srcmlns.hpp) *)
Record ns := Ns { ns_prefix : bytes; ns_uri : bytes; ns_flags : N }.
Definition NS_REQUIRED : N := 1. Definition NS_ROOT : N := 2. Definition NS_USED : N := 4.
Definition NS_REGISTERED : N := 8. Definition NS_STANDARD : N := 16.
Definition SRC_URI := txt "http://www.srcML.org/srcML/src".
Definition CPP_URI := txt "http://www.srcML.org/srcML/cpp".
Definition ERROR_URI := txt "http://www.srcML.org/srcML/error".
Definition POSITION_URI := txt "http://www.srcML.org/srcML/position".
Definition OPENMP_URI := txt "http://www.srcML.org/srcML/openmp".
Definition DIFF_URI := txt "http://www.srcML.org/srcDiff".
(** srcmlns.hpp: default_namespaces and starting_namespaces *)
Definition default_namespaces : list ns :=
  [Ns [] SRC_URI (N.lor NS_STANDARD NS_REQUIRED); Ns (txt "cpp") CPP_URI NS_STANDARD;
   Ns (txt "err") ERROR_URI (N.lor NS_STANDARD NS_ROOT); Ns (txt "pos") POSITION_URI (N.lor NS_STANDARD NS_ROOT);
   Ns (txt "omp") OPENMP_URI NS_STANDARD].
Definition starting_namespaces : list ns := [Ns [] SRC_URI (N.lor NS_STANDARD NS_REQUIRED)].

(** find in the view by URI (boost hashed index; the URIs of a container are distinct in all uses,
    which C14/C15 prove, so "the first" is "the only") *)
Fixpoint find_uri (l : list ns) (u : bytes) : option ns :=
  match l with [] => None | n :: t => if beqb (ns_uri n) u then Some n else find_uri t u end.
(** view.modify on the entry found *)
Fixpoint modify_uri (l : list ns) (u : bytes) (f : ns -> ns) : list ns :=
  match l with [] => [] | n :: t => if beqb (ns_uri n) u then f n :: t else n :: modify_uri t u f end.

(** srcmlns.cpp:29-54 [operator+=], one entry *)
Definition merge1 (l : list ns) (n : ns) : list ns :=
  match find_uri l (ns_uri n) with
  | Some cur =>
      match find_uri default_namespaces (ns_uri n) with
      | None => modify_uri l (ns_uri n) (fun t => Ns (ns_prefix n) (ns_uri t) (N.lor (ns_flags t) (ns_flags n)))
      | Some d => if beqb (ns_prefix cur) (ns_prefix d)
                  then modify_uri l (ns_uri n) (fun t => Ns (ns_prefix n) (ns_uri t) (N.lor (ns_flags t) (ns_flags n)))
                  else l
      end
  | None => l ++ [Ns (ns_prefix n) (ns_uri n) (ns_flags n)]
  end.
Definition merge (l other : list ns) : list ns := fold_left merge1 other l.

(** srcmlns.hpp: SRCML_URI_PREFIX *)
Definition URI_NEW := txt "http://www.srcML.org/".
Definition URI_OLD := txt "http://www.sdml.info/".
(** std::string::substr(0, n) == prefix *)
Definition has_prefix (u p : bytes) : bool := beqb (firstn (length p) u) p.
(** srcmlns.cpp:68-90 [is_srcml_namespace]: the suffix loops over both prefixes *)
Definition uri_suffix (u : bytes) : bytes :=
  if has_prefix u URI_NEW then skipn (length URI_NEW) u
  else if has_prefix u URI_OLD then skipn (length URI_OLD) u else u.
Definition is_srcml_namespace (u v : bytes) : bool :=
  if beqb u v then true else beqb (uri_suffix u) (uri_suffix v).
(** srcmlns.cpp:100-106 [srcml_uri_normalize] *)
Definition uri_normalize (u : bytes) : bytes :=
  if has_prefix u URI_OLD then URI_NEW ++ skipn (length URI_OLD) u else u.

(** ** Options (srcml.h:107-117, srcml_types.hpp:40-60) *)
Definition OPT_POSITION : N := 2 ^ 2. Definition OPT_CPP : N := 2 ^ 3.
Definition OPT_NAMESPACE_DECL : N := 2 ^ 8. Definition OPT_DEBUG : N := 2 ^ 11.
Definition OPT_CPP_DECLARED : N := 2 ^ 13. Definition OPT_ARCHIVE : N := 2 ^ 14. Definition OPT_HASH : N := 2 ^ 15.
Definition OPT_DEFAULT : N := N.lor (N.lor OPT_ARCHIVE OPT_HASH) OPT_NAMESPACE_DECL.

(** ** The settings of a srcml_archive (srcml_types.hpp:111-176) *)
Inductive sattr := SrcEncoding | XmlEncoding | ALanguage | AUrl | AVersion.
Record archive := Archive {
  a_src_encoding : option bytes; a_encoding : option bytes; a_language : option bytes;
  a_url : option bytes; a_version : option bytes; a_revision : option bytes;
  a_options : N; a_tabstop : N; a_namespaces : list ns; a_pi : option (bytes * bytes);
  a_extensions : registry; a_macros : list bytes; a_revision_number : option N }.

(** srcml_archive.cpp:64-76 [srcml_archive_create] with the default member values; the revision is the
    library version string. *)
Definition VERSION_STRING := txt "1.0.0".
Definition archive_create : archive :=
  Archive None None None None None (Some VERSION_STRING) OPT_DEFAULT 8 starting_namespaces None
          (standard_extensions ++ standard_extensions) [] None.

Definition with_options (a : archive) (o : N) : archive :=
  Archive (a_src_encoding a) (a_encoding a) (a_language a) (a_url a) (a_version a) (a_revision a)
    o (a_tabstop a) (a_namespaces a) (a_pi a) (a_extensions a) (a_macros a) (a_revision_number a).
Definition with_namespaces (a : archive) (l : list ns) : archive :=
  Archive (a_src_encoding a) (a_encoding a) (a_language a) (a_url a) (a_version a) (a_revision a)
    (a_options a) (a_tabstop a) l (a_pi a) (a_extensions a) (a_macros a) (a_revision_number a).
Definition with_macros (a : archive) (l : list bytes) : archive :=
  Archive (a_src_encoding a) (a_encoding a) (a_language a) (a_url a) (a_version a) (a_revision a)
    (a_options a) (a_tabstop a) (a_namespaces a) (a_pi a) (a_extensions a) l (a_revision_number a).
Definition with_extensions (a : archive) (r : registry) : archive :=
  Archive (a_src_encoding a) (a_encoding a) (a_language a) (a_url a) (a_version a) (a_revision a)
    (a_options a) (a_tabstop a) (a_namespaces a) (a_pi a) r (a_macros a) (a_revision_number a).

(** 64-bit unsigned arithmetic *)
Definition u64 (n : N) : N := n mod 2 ^ 64.

(** srcml_archive.cpp:184-271: the string setters (a null value clears) *)
Definition set_attr (a : archive) (k : sattr) (v : option bytes) : archive :=
  match k with
  | SrcEncoding => Archive v (a_encoding a) (a_language a) (a_url a) (a_version a) (a_revision a)
      (a_options a) (a_tabstop a) (a_namespaces a) (a_pi a) (a_extensions a) (a_macros a) (a_revision_number a)
  | XmlEncoding => Archive (a_src_encoding a) v (a_language a) (a_url a) (a_version a) (a_revision a)
      (a_options a) (a_tabstop a) (a_namespaces a) (a_pi a) (a_extensions a) (a_macros a) (a_revision_number a)
  | ALanguage => Archive (a_src_encoding a) (a_encoding a) v (a_url a) (a_version a) (a_revision a)
      (a_options a) (a_tabstop a) (a_namespaces a) (a_pi a) (a_extensions a) (a_macros a) (a_revision_number a)
  | AUrl => Archive (a_src_encoding a) (a_encoding a) (a_language a) v (a_version a) (a_revision a)
      (a_options a) (a_tabstop a) (a_namespaces a) (a_pi a) (a_extensions a) (a_macros a) (a_revision_number a)
  | AVersion => Archive (a_src_encoding a) (a_encoding a) (a_language a) (a_url a) v (a_revision a)
      (a_options a) (a_tabstop a) (a_namespaces a) (a_pi a) (a_extensions a) (a_macros a) (a_revision_number a)
  end.
(** srcml_archive.cpp:588-646: the string getters *)
Definition get_attr (a : archive) (k : sattr) : option bytes :=
  match k with
  | SrcEncoding => a_src_encoding a | XmlEncoding => a_encoding a | ALanguage => a_language a
  | AUrl => a_url a | AVersion => a_version a
  end.

(** The calls that change settings. A pointer argument that may be null is an option. *)
Inductive call :=
| SetAttr (k : sattr) (v : option bytes)
| SetOptions (o : N) | EnableOption (o : N) | DisableOption (o : N)
| EnableSolitary | DisableSolitary | EnableHash | DisableHash
| SetTabstop (n : N)
| RegisterExtension (ext lang : option bytes)
| RegisterNamespace (prefix uri : option bytes)
| RegisterMacro (token type : option bytes)
| SetRevision (n : N).

(** srcml_archive.cpp:533-556 [srcml_archive_register_macro]: loop over the pairs of the flat vector.
    vector::at outside the range throws, which is caught and gives SRCML_STATUS_ERROR: [None]. *)
Fixpoint macro_loop (v : list bytes) (token type : bytes) (i fuel : nat) : option (option (list bytes)) :=
  match fuel with
  | O => Some None                                      (* i reached the number of pairs *)
  | S f => match nth_error v (i * 2) with
           | None => None
           | Some t => if beqb t token
                       then match nth_error v (i * 2 + 1) with
                            | None => None
                            | Some _ => Some (Some (firstn (i * 2 + 1) v ++ type :: skipn (i * 2 + 2) v))
                            end
                       else macro_loop v token type (S i) f
           end
  end.
Definition register_macro (a : archive) (token type : option bytes) : status * archive :=
  match token, type with
  | Some tk, Some ty =>
      match macro_loop (a_macros a) tk ty 0 (length (a_macros a) / 2) with
      | None => (ST_ERROR, a)
      | Some (Some v) => (ST_OK, with_macros a v)
      | Some None => (ST_OK, with_macros a (a_macros a ++ [tk; ty]))
      end
  | _, _ => (ST_INVALID_ARGUMENT, a)
  end.

(** srcml_archive.cpp:465-494 [srcml_archive_register_namespace] *)
Definition register_namespace (a : archive) (prefix uri : option bytes) : status * archive :=
  match prefix, uri with
  | Some p, Some u =>
      let l := a_namespaces a in
      let l := match find_uri l u with
               | Some _ => modify_uri l u (fun n => Ns p (ns_uri n) (ns_flags n))
               | None => l ++ [Ns p u NS_REGISTERED]
               end in
      let o := a_options a in
      let o := if beqb u CPP_URI then N.lor (N.lor o OPT_CPP) OPT_CPP_DECLARED
               else if beqb u ERROR_URI then N.lor o OPT_DEBUG
               else if beqb u POSITION_URI then N.lor o OPT_POSITION else o in
      (ST_OK, with_options (with_namespaces a l) o)
  | _, _ => (ST_INVALID_ARGUMENT, a)
  end.

(** One call on a valid handle. Lines of srcml_archive.cpp: set_options 282-297, solitary/hash 317-364,
    enable_option 376-391, disable_option 403-413, tabstop 424-432, register_file_extension 444-453,
    set_srcdiff_revision 565-574. Options are 64-bit words. *)
Definition step (a : archive) (c : call) : status * archive :=
  match c with
  | SetAttr k v => (ST_OK, set_attr a k v)
  | SetOptions o => (* |= CPP_DECLARED is overwritten by the next assignment *)
      (ST_OK, with_options a (u64 o mod 2 ^ 7))
  | EnableOption o =>
      let w := if N.testbit o 3 then N.lor (a_options a) OPT_CPP_DECLARED else a_options a in
      (ST_OK, with_options a (N.lor w (u64 o mod 2 ^ 7)))
  | DisableOption o => (ST_OK, with_options a (N.ldiff (a_options a) (u64 o mod 2 ^ 7)))
  | EnableSolitary => (ST_OK, with_options a (N.ldiff (a_options a) OPT_ARCHIVE))
  | DisableSolitary => (ST_OK, with_options a (N.lor (a_options a) OPT_ARCHIVE))
  | EnableHash => (ST_OK, with_options a (N.lor (a_options a) OPT_HASH))
  | DisableHash => (ST_OK, with_options a (N.ldiff (a_options a) OPT_HASH))
  | SetTabstop n => (ST_OK, Archive (a_src_encoding a) (a_encoding a) (a_language a) (a_url a) (a_version a) (a_revision a)
      (a_options a) n (a_namespaces a) (a_pi a) (a_extensions a) (a_macros a) (a_revision_number a))
  | RegisterExtension (Some e) (Some l) =>
      let r := register_name (a_extensions a) e l in
      ((if fst r then ST_OK else ST_INVALID_INPUT), with_extensions a (snd r))
  | RegisterExtension _ _ => (ST_INVALID_ARGUMENT, a)
  | RegisterNamespace p u => register_namespace a p u
  | RegisterMacro t y => register_macro a t y
  | SetRevision n =>
      if (n =? 0) || (n =? 1)
      then (ST_OK, Archive (a_src_encoding a) (a_encoding a) (a_language a) (a_url a) (a_version a) (a_revision a)
             (a_options a) (a_tabstop a) (a_namespaces a) (a_pi a) (a_extensions a) (a_macros a) (Some n))
      else (ST_INVALID_ARGUMENT, a)
  end.
(** srcml_archive.cpp:505-513 [srcml_archive_set_processing_instruction]: a null target or data constructs a
    std::string from a null pointer, [UB]. *)
Definition set_processing_instruction (a : archive) (target data : option bytes) : outcome (status * archive) :=
  match target, data with
  | Some t, Some d => Ok (ST_OK, Archive (a_src_encoding a) (a_encoding a) (a_language a) (a_url a) (a_version a) (a_revision a)
      (a_options a) (a_tabstop a) (a_namespaces a) (Some (t, d)) (a_extensions a) (a_macros a) (a_revision_number a))
  | _, _ => UB
  end.
(** every setter with a null archive: SRCML_STATUS_INVALID_ARGUMENT and no effect *)
Definition call_on (h : option archive) (c : call) : status * option archive :=
  match h with None => (ST_INVALID_ARGUMENT, None) | Some a => (fst (step a c), Some (snd (step a c))) end.
(** a history of calls *)
Definition run (h : list call) (a : archive) : archive := fold_left (fun a c => snd (step a c)) h a.

(** ** Getters *)
(** srcml_archive.cpp:36-46 [srcml_archive_check_extension] *)
Definition check_extension (a : archive) (filename : bytes) : outcome (option bytes) :=
  obind (language_from_filename (a_extensions a) filename) (fun l =>
    let s := getLanguageString l in Ok (match s with [] => None | _ => Some s end)).
(** srcml_archive.cpp:655-658 *)
Definition get_options (a : archive) : N := a_options a mod 2 ^ 7.
(** srcml_archive.cpp:302-312 *)
Definition is_solitary (a : archive) : bool := N.land (a_options a) OPT_ARCHIVE =? 0.
Definition has_hash (a : archive) : bool := negb (N.land (a_options a) OPT_HASH =? 0).
(** srcml_archive.cpp:690-699: the test is pos > size, so pos = size indexes past the end *)
Definition namespace_prefix (a : archive) (pos : nat) : outcome (option bytes) :=
  if (length (a_namespaces a) <? pos)%nat then Ok None
  else match nth_error (a_namespaces a) pos with None => UB | Some n => Ok (Some (ns_prefix n)) end.
(** srcml_archive.cpp:728-737 *)
Definition namespace_uri (a : archive) (pos : nat) : outcome (option bytes) :=
  if (length (a_namespaces a) <=? pos)%nat then Ok None
  else match nth_error (a_namespaces a) pos with None => UB | Some n => Ok (Some (ns_uri n)) end.
(** srcml_archive.cpp:709-718 *)
Definition prefix_from_uri (a : archive) (u : bytes) : option bytes := option_map ns_prefix (find_uri (a_namespaces a) u).
(** srcml_archive.cpp:747-756: the view by prefix is not unique; which of several entries with the
    prefix is found is boost's choice, represented by [pick]. *)
Definition uri_from_prefix (pick : list ns -> option ns) (a : archive) (p : bytes) : option bytes :=
  option_map ns_uri (pick (filter (fun n => beqb (ns_prefix n) p) (a_namespaces a))).
(** srcml_archive.cpp:786-852; [pos] is a size_t, pos * 2 wraps *)
Definition macro_size (a : archive) : nat := length (a_macros a) / 2.
Definition macro_token (a : archive) (pos : N) : outcome (option bytes) :=
  let i := u64 (pos * 2) in
  if N.of_nat (length (a_macros a)) <=? i then Ok None
  else match nth_error (a_macros a) (N.to_nat i) with None => UB | Some s => Ok (Some s) end.
Definition macro_type (a : archive) (pos : N) : outcome (option bytes) :=
  let i := u64 (u64 (pos * 2) + 1) in
  if N.of_nat (length (a_macros a)) <=? i then Ok None
  else match nth_error (a_macros a) (N.to_nat i) with None => UB | Some s => Ok (Some s) end.
(** srcml_archive.cpp:818-833: the loop has no upper bound; it ends by the exception at() throws outside
    the vector. [fuel]: one more round than there are pairs always suffices. *)
Fixpoint token_type_loop (v : list bytes) (token : bytes) (i fuel : nat) : outcome (option bytes) :=
  match fuel with
  | O => UB
  | S f => match nth_error v (i * 2) with
           | None => Ok None
           | Some t => if beqb t token then Ok (nth_error v (i * 2 + 1)) else token_type_loop v token (S i) f
           end
  end.
Definition macro_token_type (a : archive) (token : bytes) : outcome (option bytes) :=
  if (macro_size a =? 0)%nat then Ok None else token_type_loop (a_macros a) token 0 (S (length (a_macros a))).
(** srcml_archive.cpp:862-868; srcml.h:1624-1628 *)
Definition REVISION_INVALID : N := 2.
Definition get_revision (a : archive) : N := match a_revision_number a with Some n => n | None => REVISION_INVALID end.

(** ** Units: settings *)
Inductive uattr := USrcEncoding | ULanguage | UFilename | UVersion | UTimestamp | UHash.
Record usettings := USettings {
  u_encoding : option bytes; u_language : option bytes; u_filename : option bytes;
  u_version : option bytes; u_timestamp : option bytes; u_hash : option bytes; u_eol : N }.
(** srcml_unit.cpp:1160-1175 with the default member values *)
Definition unit_create : usettings := USettings None None None None None None 0.
(** srcml_unit.cpp:48-150 *)
Definition uset (u : usettings) (k : uattr) (v : option bytes) : usettings :=
  match k with
  | USrcEncoding => USettings v (u_language u) (u_filename u) (u_version u) (u_timestamp u) (u_hash u) (u_eol u)
  | ULanguage => USettings (u_encoding u) v (u_filename u) (u_version u) (u_timestamp u) (u_hash u) (u_eol u)
  | UFilename => USettings (u_encoding u) (u_language u) v (u_version u) (u_timestamp u) (u_hash u) (u_eol u)
  | UVersion => USettings (u_encoding u) (u_language u) (u_filename u) v (u_timestamp u) (u_hash u) (u_eol u)
  | UTimestamp => USettings (u_encoding u) (u_language u) (u_filename u) (u_version u) v (u_hash u) (u_eol u)
  | UHash => USettings (u_encoding u) (u_language u) (u_filename u) (u_version u) (u_timestamp u) v (u_eol u)
  end.
(** srcml_unit.cpp:192-290 *)
Definition uget (u : usettings) (k : uattr) : option bytes :=
  match k with
  | USrcEncoding => u_encoding u | ULanguage => u_language u | UFilename => u_filename u
  | UVersion => u_version u | UTimestamp => u_timestamp u | UHash => u_hash u
  end.
Inductive ucall := USet (k : uattr) (v : option bytes) | USetEol (e : N).
(** srcml_unit.cpp:163-173 [srcml_unit_set_eol] *)
Definition ustep (u : usettings) (c : ucall) : status * usettings :=
  match c with
  | USet k v => (ST_OK, uset u k v)
  | USetEol e => if 3 <? e then (ST_INVALID_ARGUMENT, u)
                 else (ST_OK, USettings (u_encoding u) (u_language u) (u_filename u) (u_version u) (u_timestamp u) (u_hash u) e)
  end.
Definition urun (h : list ucall) (u : usettings) : usettings := fold_left (fun u c => snd (ustep u c)) h u.

(** ** Language decision *)
(** srcml_unit.cpp:487-500 [srcml_unit_parse_internal]; [filename] is the argument of
    srcml_unit_parse_filename, null for the other routes (srcml_unit.cpp:560-655). *)
Definition decide_language (u : usettings) (a : archive) (filename : option bytes) : outcome (status * N) :=
  let lang := match u_language u with
              | Some l => check_language (Some l)
              | None => match a_language a with Some l => check_language (Some l) | None => 0 end
              end in
  obind (match filename with
         | Some f => if lang =? 0 then language_from_filename (a_extensions a) f else Ok lang
         | None => Ok lang
         end) (fun lang => Ok (if lang =? 0 then ST_UNSET_LANGUAGE else ST_OK, lang)).

(** ** Objects and handles: clones *)
(** srcml_types.hpp:100-176: the settings and the input/output state; pointers are addresses, null is [None].
    Attribute pairs read from a document and the shared, immutable transformations are carried as they are. *)
Inductive iotype := IO_INVALID | IO_RW | IO_READ | IO_WRITE.
Record aobj := AObj {
  o_settings : archive; o_attributes : list bytes; o_transformations : list nat;
  o_type : iotype; o_translator : option nat; o_reader : option nat; o_output : option nat;
  o_xbuffer : option nat; o_buffer : option nat; o_size : option nat; o_raw : bool;
  o_error : bytes * Z }.
(** srcml_types.hpp:179-245 *)
Record uobj := UObj {
  uo_archive : nat; uo_settings : usettings; uo_revision : option bytes; uo_url : option bytes;
  uo_attributes : list bytes; uo_derived : N; uo_namespaces : option (list ns);
  uo_output : option nat; uo_translator : option nat; uo_read_header : bool; uo_read_body : bool;
  uo_srcml : bytes; uo_src : option bytes; uo_raw : option bytes; uo_fragment : option bytes;
  uo_content : Z * Z; uo_insert : Z * Z; uo_loc : Z; uo_error : bytes * Z }.
(** srcml_archive.cpp:139-164 [srcml_archive_clone] of a non-null archive: the copy assignment copies every field *)
Definition archive_clone (o : aobj) : aobj :=
  let n := AObj (o_settings o) (o_attributes o) (o_transformations o) (o_type o) (o_translator o) (o_reader o)
                (o_output o) (o_xbuffer o) (o_buffer o) (o_size o) (o_raw o) (o_error o) in
  AObj (o_settings n) (o_attributes n) (o_transformations n) IO_INVALID None None None None None None false ([], 0%Z).
(** srcml_unit.cpp:1160-1175 [srcml_unit_create] *)
Definition new_unit (archive : nat) : uobj :=
  UObj archive unit_create (Some VERSION_STRING) None [] 0 None None None false false [] None None None (0, 0)%Z (0, 0)%Z (-1)%Z ([], 0%Z).
(** srcml_unit.cpp:1183-1205 [srcml_unit_clone] of a non-null unit *)
Definition unit_clone (u : uobj) : uobj :=
  let n := new_unit (uo_archive u) in
  let s := uo_settings u in
  UObj (uo_archive n)
       (USettings (u_encoding s) (u_language s) (u_filename s) (u_version s) (u_timestamp s) (u_hash s) (u_eol s))
       (uo_revision u) (uo_url u) (uo_attributes u) (uo_derived u) (uo_namespaces u)
       (uo_output n) (uo_translator n) (uo_read_header n) (uo_read_body n) (uo_srcml n) (uo_src n) (uo_raw n) (uo_fragment n)
       (uo_content n) (uo_insert n) (uo_loc n) (uo_error n).
(** the heap: archives and units by handle; [w_next] is the next unused handle *)
Record world := World { w_archives : nat -> option aobj; w_units : nat -> option uobj; w_next : nat }.
Inductive wcall := WCreate | WArchive (h : nat) (c : call) | WUnit (h : nat) (c : ucall) | WCloneArchive (h : nat) | WCloneUnit (h : nat)
                 | WCreateUnit (h : nat)
                 | WArchiveIo (h : nat) (o : aobj)   (* any open/read/write/close call: the input/output state becomes that of [o] *)
                 | WUnitIo (h : nat) (u : uobj).     (* any parse/read/write call: everything but settings and archive becomes that of [u] *)
Definition put {A} (m : nat -> option A) (h : nat) (x : A) : nat -> option A := fun k => if (k =? h)%nat then Some x else m k.
Definition with_settings (o : aobj) (s : archive) : aobj :=
  AObj s (o_attributes o) (o_transformations o) (o_type o) (o_translator o) (o_reader o)
       (o_output o) (o_xbuffer o) (o_buffer o) (o_size o) (o_raw o) (o_error o).
Definition with_usettings (u : uobj) (s : usettings) : uobj :=
  UObj (uo_archive u) s (uo_revision u) (uo_url u) (uo_attributes u) (uo_derived u) (uo_namespaces u)
       (uo_output u) (uo_translator u) (uo_read_header u) (uo_read_body u) (uo_srcml u) (uo_src u) (uo_raw u) (uo_fragment u)
       (uo_content u) (uo_insert u) (uo_loc u) (uo_error u).
Definition with_archive (u : uobj) (a : nat) : uobj :=
  UObj a (uo_settings u) (uo_revision u) (uo_url u) (uo_attributes u) (uo_derived u) (uo_namespaces u)
       (uo_output u) (uo_translator u) (uo_read_header u) (uo_read_body u) (uo_srcml u) (uo_src u) (uo_raw u) (uo_fragment u)
       (uo_content u) (uo_insert u) (uo_loc u) (uo_error u).
(** calls through handles; a handle of no object stands for null, on which every call does nothing *)
Definition wstep (w : world) (c : wcall) : world :=
  match c with
  | WCreate => World (put (w_archives w) (w_next w) (AObj archive_create [] [] IO_INVALID None None None None None None false ([], 0%Z)))
                     (w_units w) (S (w_next w))
  | WArchive h c => match w_archives w h with
                    | Some o => World (put (w_archives w) h (with_settings o (snd (step (o_settings o) c)))) (w_units w) (w_next w)
                    | None => w end
  | WUnit h c => match w_units w h with
                 | Some u => World (w_archives w) (put (w_units w) h (with_usettings u (snd (ustep (uo_settings u) c)))) (w_next w)
                 | None => w end
  | WCloneArchive h => match w_archives w h with
                       | Some o => World (put (w_archives w) (w_next w) (archive_clone o)) (w_units w) (S (w_next w))
                       | None => w end
  | WCloneUnit h => match w_units w h with
                    | Some u => World (w_archives w) (put (w_units w) (w_next w) (unit_clone u)) (S (w_next w))
                    | None => w end
  | WCreateUnit h => match w_archives w h with
                    | Some _ => World (w_archives w) (put (w_units w) (w_next w) (new_unit h)) (S (w_next w))
                    | None => w end
  | WArchiveIo h n => match w_archives w h with
                    | Some o => World (put (w_archives w) h (with_settings n (o_settings o))) (w_units w) (w_next w)
                    | None => w end
  | WUnitIo h n => match w_units w h with
                    | Some u => World (w_archives w) (put (w_units w) h (with_archive (with_usettings n (uo_settings u)) (uo_archive u))) (w_next w)
                    | None => w end
  end.
Definition wrun (hs : list wcall) (w : world) : world := fold_left wstep hs w.
Definition empty_world : world := World (fun _ => None) (fun _ => None) 0.
