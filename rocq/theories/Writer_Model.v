(** Model of srcML output: libxml2's text writer as srcML uses it, srcMLOutput's unit tags, srcml_translator,
    writing units by element, archive output. *)
From Verif Require Import Base Text_Model Api_Model.
Local Open Scope N_scope.

(** ** xmlTextWriter (libxml2, external; trusted base). Only the states srcML reaches are modelled: an element whose
    start tag is still open, element content, and the empty document. Bytes from 128 on are written as they are
    (libxml2 may write them as character references in attributes). *)
Definition esc_attr (s : bytes) : bytes :=
  flat_map (fun c => if c =? 34 then txt "&quot;" else if c =? 60 then txt "&lt;" else if c =? 62 then txt "&gt;"
                     else if c =? 38 then txt "&amp;" else if c =? 10 then txt "&#10;" else if c =? 9 then txt "&#9;"
                     else if c =? 13 then txt "&#13;" else [c]) s.
(** xmlEncodeSpecialChars *)
Definition esc_text (s : bytes) : bytes :=
  flat_map (fun c => if c =? 60 then txt "&lt;" else if c =? 62 then txt "&gt;" else if c =? 38 then txt "&amp;"
                     else if c =? 34 then txt "&quot;" else if c =? 13 then txt "&#13;" else [c]) s.
Definition attr (p : bytes * bytes) : bytes := [32] ++ fst p ++ txt "=""" ++ esc_attr (snd p) ++ [34].
Definition attrs (l : list (bytes * bytes)) : bytes := flat_map attr l.

(** [w_nodes]: names of the open elements, innermost first ([None]: libxml2 has freed its list); [w_intag]: the
    innermost start tag is still open; [w_ns]: namespace declarations pending for it, latest first. *)
Record writer := Writer { w_out : bytes; w_nodes : option (list bytes); w_intag : bool; w_ns : list (bytes * bytes) }.
Definition new_writer : writer := Writer [] (Some []) false [].
(** xmlTextWriterHandleStateDependencies / OutputNSDecl *)
Definition close_tag (w : writer) : writer :=
  if w_intag w then Writer (w_out w ++ attrs (w_ns w) ++ [62]) (w_nodes w) false [] else w.
(** xmlTextWriterStartElement; the result is [false] for -1 *)
Definition start_element (w : writer) (name : bytes) : writer * bool :=
  match name with
  | [] => (w, false)
  | _ => let w := close_tag w in
         (match w_nodes w with
          | Some l => Writer (w_out w ++ [60] ++ name) (Some (name :: l)) true (w_ns w)
          | None => Writer (w_out w ++ [60] ++ name) None false (w_ns w)
          end, true)
  end.
(** xmlTextWriterStartElementNS *)
Definition qname (prefix : option bytes) (name : bytes) : bytes :=
  match prefix with Some p => p ++ [58] ++ name | None => name end.
Definition xmlns (prefix : option bytes) : bytes := match prefix with Some p => txt "xmlns:" ++ p | None => txt "xmlns" end.
Definition start_element_ns (w : writer) (prefix : option bytes) (name : bytes) (uri : option bytes) : writer * bool :=
  match name with
  | [] => (w, false)
  | _ => let w := fst (start_element w (qname prefix name)) in
         (match uri with
          | Some u => Writer (w_out w) (w_nodes w) (w_intag w) ((xmlns prefix, u) :: w_ns w)
          | None => w
          end, true)
  end.
(** xmlTextWriterEndElement *)
Definition end_element (w : writer) : writer * bool :=
  match w_nodes w with
  | Some (n :: r) =>
      (if w_intag w then Writer (w_out w ++ attrs (w_ns w) ++ txt "/>") (Some r) false []
       else Writer (w_out w ++ txt "</" ++ n ++ [62]) (Some r) false (w_ns w), true)
  | _ => (Writer (w_out w) None (w_intag w) (w_ns w), false)
  end.
(** xmlTextWriterWriteAttribute *)
Definition write_attribute (w : writer) (n v : bytes) : writer * bool :=
  match n with
  | [] => (w, false)
  | _ => if w_intag w then (Writer (w_out w ++ attr (n, v)) (w_nodes w) (w_intag w) (w_ns w), true) else (w, false)
  end.
(** xmlTextWriterWriteAttributeNS: the declaration is recorded first *)
Fixpoint lookup (l : list (bytes * bytes)) (n : bytes) : option bytes :=
  match l with [] => None | (m, v) :: t => if beqb m n then Some v else lookup t n end.
Definition write_attribute_ns (w : writer) (prefix : option bytes) (n : bytes) (uri : option bytes) (v : bytes) : writer * bool :=
  match n with
  | [] => (w, false)
  | _ =>
    match uri with
    | None => write_attribute w (qname prefix n) v
    | Some u =>
        match lookup (w_ns w) (xmlns prefix) with
        | Some u' => if beqb u u' then write_attribute w (qname prefix n) v else (w, false)
        | None => write_attribute (Writer (w_out w) (w_nodes w) (w_intag w) ((xmlns prefix, u) :: w_ns w)) (qname prefix n) v
        end
    end
  end.
(** xmlTextWriterWriteRawLen *)
Definition write_raw (w : writer) (s : bytes) : writer * bool :=
  let w := close_tag w in (Writer (w_out w ++ s) (w_nodes w) (w_intag w) (w_ns w), true).
(** xmlTextWriterWriteString, not in an attribute *)
Definition write_string (w : writer) (s : bytes) : writer * bool :=
  match w_nodes w with
  | Some (_ :: _) => write_raw w (esc_text s)
  | _ => write_raw w s
  end.
(** xmlTextWriterStartDocument *)
Definition start_document (w : writer) (encoding : bytes) : writer :=
  match w_nodes w with
  | Some (_ :: _) => w
  | _ => Writer (w_out w ++ txt "<?xml version=""1.0"" encoding=""" ++ encoding ++ txt """ standalone=""yes""?>" ++ [10])
                (w_nodes w) (w_intag w) (w_ns w)
  end.
(** xmlTextWriterEndDocument: end every open element, then a newline *)
Fixpoint end_all (n : nat) (w : writer) : writer := match n with O => w | S n => end_all n (fst (end_element w)) end.
Definition end_document (w : writer) : writer :=
  let w := match w_nodes w with Some l => end_all (length l) w | None => w end in
  Writer (w_out w ++ [10]) (w_nodes w) (w_intag w) (w_ns w).

(** ** srcMLOutput (parser/srcMLOutput.cpp) *)
Definition opt (o : N) (bit : N) : bool := N.testbit o bit.
Definition B_NO_XML_DECL : N := 1. Definition B_POSITION : N := 2. Definition B_CPP_TEXT_ELSE : N := 4.
Definition B_CPP_MARKUP_IF0 : N := 5. Definition B_STORE_ENCODING : N := 6. Definition B_NAMESPACE_DECL : N := 8.
Definition B_LINE : N := 10. Definition B_DEBUG : N := 11. Definition B_CPP_DECLARED : N := 13. Definition B_ARCHIVE : N := 14.
Record sout := SOut {
  so_w : option writer;                 (* xout, null after close *)
  so_depth : N; so_didwrite : bool; so_ns : list ns; so_options : N; so_tabs : bytes; so_macros : list bytes;
  so_pi : option (bytes * bytes); so_encoding : bytes; so_final : bytes (* what was written when the writer was closed *) }.
Definition with_w (o : sout) (w : writer) : sout :=
  SOut (Some w) (so_depth o) (so_didwrite o) (so_ns o) (so_options o) (so_tabs o) (so_macros o) (so_pi o) (so_encoding o) (so_final o).
Definition with_ns (o : sout) (l : list ns) : sout :=
  SOut (so_w o) (so_depth o) (so_didwrite o) l (so_options o) (so_tabs o) (so_macros o) (so_pi o) (so_encoding o) (so_final o).
(** a text-writer operation; with a null writer libxml2 does nothing and returns -1 *)
Definition on_w (o : sout) (f : writer -> writer) : sout := match so_w o with Some w => with_w o (f w) | None => o end.
(** srcmlns.hpp:50 getPrefix on the namespace at a position: marks it used *)
Fixpoint mark (i : nat) (l : list ns) : list ns :=
  match l, i with
  | [], _ => []
  | n :: t, O => Ns (ns_prefix n) (ns_uri n) (N.lor (ns_flags n) NS_USED) :: t
  | n :: t, S j => n :: mark j t
  end.
Definition prefix_at (i : nat) (l : list ns) : bytes := match nth_error l i with Some n => ns_prefix n | None => [] end.
Definition SRC : nat := 0. Definition CPP : nat := 1. Definition ERR : nat := 2. Definition POS : nat := 3. Definition OMP : nat := 4.
(** srcMLOutput.cpp:99-107 initNamespaces *)
Definition init_namespaces (o : sout) (other : list ns) : sout := with_ns o (merge default_namespaces other).
(** srcMLOutput.cpp:248-260: options mark their namespace as used *)
Definition use_uri (b : bool) (u : bytes) (l : list ns) : list ns :=
  if b then modify_uri l u (fun n => Ns (ns_prefix n) (ns_uri n) (N.lor (ns_flags n) NS_USED)) else l.
Definition mark_options (o : N) (l : list ns) : list ns :=
  use_uri (opt o B_DEBUG) ERROR_URI (use_uri (opt o B_POSITION) POSITION_URI (use_uri (opt o B_CPP_DECLARED) CPP_URI l)).
Definition flag (n : ns) (f : N) : bool := negb (N.land (ns_flags n) f =? 0).
(** srcMLOutput.cpp:262-288: is the namespace declared on a unit tag at this depth *)
Definition declared (o depth : N) (n : ns) : bool :=
  let outer := (depth =? 0) || negb (opt o B_ARCHIVE) in
  let inner := (depth =? 1) || negb (opt o B_ARCHIVE) in
  (outer && (flag n NS_STANDARD && (flag n NS_REQUIRED || (flag n NS_ROOT && flag n NS_USED))
             || flag n NS_REGISTERED && negb (flag n NS_STANDARD)))
  || (inner && (flag n NS_STANDARD && negb (flag n NS_ROOT) && negb (flag n NS_REQUIRED) && flag n NS_USED)).
(** srcMLOutput.cpp:37-46 *)
Definition ns_attr (n : ns) : bytes * bytes :=
  (match ns_prefix n with [] => txt "xmlns" | p => txt "xmlns:" ++ p end, ns_uri n).
Definition add_attrs (w : writer) (l : list (bytes * bytes)) : writer := fold_left (fun w p => fst (write_attribute w (fst p) (snd p))) l w.
(** the arguments of startUnit *)
Record tag_args := TagArgs {
  g_language : option bytes; g_revision : option bytes; g_url : option bytes; g_filename : option bytes; g_version : option bytes;
  g_timestamp : option bytes; g_hash : option bytes; g_encoding : option bytes; g_attributes : list bytes; g_macros : bool }.
(** srcMLOutput.cpp:333-346: stored options *)
Definition stored_options (o : N) : bytes :=
  let add (s : bytes) (b : bool) (name : bytes) := if b then (match s with [] => name | _ => s ++ txt "," ++ name end) else s in
  add (add (add [] (opt o B_CPP_TEXT_ELSE) (txt "CPP_TEXT_ELSE")) (opt o B_CPP_MARKUP_IF0) (txt "CPP_MARKUP_IF0")) (opt o B_LINE) (txt "LINE").
Definition given (n : bytes) (v : option bytes) : list (bytes * bytes) := match v with Some v => [(n, v)] | None => [] end.
Fixpoint pairs_of (l : list bytes) : list (bytes * bytes) :=
  match l with a :: b :: t => (a, b) :: pairs_of t | _ => [] end.
(** srcMLOutput.cpp:305-404 startUnit. The vector of attributes has even length in every use (an odd one would be
    read out of range). The string for the tab size is a temporary that is destroyed before its use
    (srcMLOutput.cpp:372); the intended value is modelled. *)
Definition unit_attrs (o : sout) (g : tag_args) : list (bytes * bytes) :=
  let pos := opt (so_options o) B_POSITION in
  let enc := match g_encoding g with None | Some [] => txt "UTF-8" | Some e => e end in
  given (txt "revision") (g_revision g) ++ given (txt "language") (g_language g) ++ given (txt "url") (g_url g) ++
  given (txt "filename") (g_filename g) ++ given (txt "version") (g_version g) ++
  (if pos then [(match prefix_at POS (so_ns o) with [] => txt "tabs" | p => p ++ txt ":tabs" end, so_tabs o)] else []) ++
  given (txt "timestamp") (g_timestamp g) ++ given (txt "hash") (g_hash g) ++
  (if opt (so_options o) B_STORE_ENCODING then [(txt "src-encoding", enc)] else []) ++
  (if (so_depth o =? 0) then match stored_options (so_options o) with [] => [] | s => [(txt "options", s)] end else []) ++
  pairs_of (g_attributes g).
Definition macro_element (w : writer) (p : bytes * bytes) : writer :=
  fst (end_element (add_attrs (fst (start_element w (txt "macro-list"))) [(txt "token", fst p); (txt "type", snd p)])).
Definition start_unit (o : sout) (g : tag_args) : sout :=
  let prefix := prefix_at SRC (so_ns o) in
  let o := with_ns o (mark SRC (so_ns o)) in
  let o := on_w o (fun w => fst (start_element_ns w (match prefix with [] => None | p => Some p end) (txt "unit") None)) in
  let o := if opt (so_options o) B_NAMESPACE_DECL
           then let l := mark_options (so_options o) (so_ns o) in
                on_w (with_ns o l) (fun w => add_attrs w (map ns_attr (filter (declared (so_options o) (so_depth o)) l)))
           else o in
  let o := if opt (so_options o) B_POSITION then with_ns o (mark POS (so_ns o)) else o in
  let o := on_w o (fun w => add_attrs w (unit_attrs o g)) in
  let o := if g_macros g then on_w o (fun w => fold_left macro_element (pairs_of (so_macros o)) w) else o in
  SOut (so_w o) (if so_depth o =? 0 then 1 else so_depth o) true (so_ns o) (so_options o) (so_tabs o) (so_macros o) (so_pi o) (so_encoding o) (so_final o).
(** srcMLOutput.cpp:150-153 *)
Definition separator (o : sout) : sout := on_w o (fun w => fst (write_raw w [10; 10])).
(** srcMLOutput.cpp:212-217 *)
Definition xml_decl (o : sout) : sout :=
  if (so_depth o =? 0) && negb (opt (so_options o) B_NO_XML_DECL) then on_w o (fun w => start_document w (so_encoding o)) else o.
(** srcMLOutput.cpp:224-235 *)
Definition output_pi (o : sout) : sout :=
  match so_pi o with
  | Some (t, d) =>
      if so_depth o =? 0
      then let o := on_w o (fun w => fst (write_raw w (txt "<?" ++ t ++ [32] ++ d ++ txt "?>" ++ [10]))) in
           SOut (so_w o) (so_depth o) true (so_ns o) (so_options o) (so_tabs o) (so_macros o) (so_pi o) (so_encoding o) (so_final o)
      else o
  | None => o
  end.
(** srcMLOutput.cpp:130-148 *)
Definition out_close (o : sout) : sout :=
  match so_w o with
  | Some w => let w := if so_didwrite o then end_document w else w in
              SOut None (so_depth o) (so_didwrite o) (so_ns o) (so_options o) (so_tabs o) (so_macros o) (so_pi o) (so_encoding o) (w_out w)
  | None => o
  end.

(** ** srcml_translator *)
Record trans := Trans {
  t_out : sout; t_first : bool; t_outputting : bool; t_depth : Z;
  t_revision : option bytes; t_url : option bytes; t_filename : option bytes; t_version : option bytes; t_attributes : list bytes }.
Definition with_out (t : trans) (o : sout) : trans :=
  Trans o (t_first t) (t_outputting t) (t_depth t) (t_revision t) (t_url t) (t_filename t) (t_version t) (t_attributes t).
(** srcml_translator.cpp:56-78 the constructor (with a new output buffer), set_macro_list *)
Definition new_trans (encoding : bytes) (options : N) (l : list ns) (pi : option (bytes * bytes)) (tabs : bytes)
    (revision url filename version : option bytes) (attributes macros : list bytes) : trans :=
  Trans (init_namespaces (SOut (Some new_writer) 0 false [] options tabs macros pi encoding []) l)
        true false 0 revision url filename version attributes.
(** srcml_translator.cpp:162-180 *)
Definition prepare_output (t : trans) : trans :=
  if t_first t then
    let o := output_pi (xml_decl (t_out t)) in
    let o := if opt (so_options o) B_ARCHIVE
             then start_unit o (TagArgs None (t_revision t) (t_url t) (t_filename t) (t_version t) None None None (t_attributes t) true)
             else o in
    Trans o false (t_outputting t) (t_depth t) (t_revision t) (t_url t) (t_filename t) (t_version t) (t_attributes t)
  else t.
Definition result_w (o : sout) (f : writer -> writer * bool) : sout * bool :=
  match so_w o with Some w => (with_w o (fst (f w)), snd (f w)) | None => (o, false) end.
(** srcml_translator.cpp:349-357 *)
Definition add_end_element (t : trans) : trans * bool :=
  if t_outputting t then
    let r := result_w (t_out t) end_element in
    (Trans (fst r) (t_first t) true (t_depth t - 1) (t_revision t) (t_url t) (t_filename t) (t_version t) (t_attributes t), snd r)
  else (t, false).
Fixpoint end_elements (n : nat) (t : trans) : trans := match n with O => t | S n => end_elements n (fst (add_end_element t)) end.
(** srcml_translator.cpp:297-308 *)
Definition add_end_unit (t : trans) : trans * bool :=
  if t_outputting t then
    let t := end_elements (Z.to_nat (t_depth t)) t in
    let r := result_w (t_out t) end_element in
    (Trans (fst r) (t_first t) false (t_depth t) (t_revision t) (t_url t) (t_filename t) (t_version t) (t_attributes t), snd r)
  else (t, false).
(** srcml_translator.cpp:96-107 *)
Definition trans_close (t : trans) : trans :=
  let t := if negb (t_first t) && opt (so_options (t_out t)) B_ARCHIVE then with_out t (separator (t_out t)) else t in
  let t := prepare_output t in
  let t := if t_outputting t then fst (add_end_unit t) else t in
  with_out t (out_close (t_out t)).
(** srcml_translator.cpp:323-339 *)
Definition add_start_element (t : trans) (prefix : option bytes) (name : bytes) (uri : option bytes) : trans * bool :=
  if negb (t_outputting t) || beqb name (txt "unit") then (t, false)
  else let used := match uri with Some u => if beqb SRC_URI u then None else Some u | None => None end in
       let r := result_w (t_out t) (fun w => start_element_ns w prefix name used) in
       (Trans (fst r) (t_first t) true (t_depth t + 1) (t_revision t) (t_url t) (t_filename t) (t_version t) (t_attributes t), snd r).
(** srcml_translator.cpp:369-381 *)
Definition add_namespace (t : trans) (prefix : option bytes) (uri : bytes) : trans * bool :=
  if t_outputting t then let r := result_w (t_out t) (fun w => write_attribute w (xmlns prefix) uri) in (with_out t (fst r), snd r)
  else (t, false).
(** srcml_translator.cpp:395-401 *)
Definition add_attribute (t : trans) (prefix : option bytes) (name : bytes) (uri : option bytes) (content : bytes) : trans * bool :=
  if t_outputting t then let r := result_w (t_out t) (fun w => write_attribute_ns w prefix name uri content) in (with_out t (fst r), snd r)
  else (t, false).
(** srcml_translator.cpp:413-436: the caller's text is overwritten with NUL at each quote and restored, which is
    undefined when it is a constant *)
Fixpoint string_loop (w : writer) (piece s : bytes) : writer * bool :=
  match s with
  | [] => write_string w piece
  | c :: t => if c =? 34 then
                let r := write_string w piece in
                if negb (snd r) then (fst r, false) else
                let r := write_raw (fst r) [34] in
                if negb (snd r) then (fst r, false) else string_loop (fst r) [] t
              else string_loop w (piece ++ [c]) t
  end.
Definition has_quote (s : bytes) : bool := existsb (fun c => c =? 34) s.
Definition add_string (t : trans) (writable : bool) (s : bytes) : outcome (trans * bool) :=
  if t_outputting t then
    if negb writable && has_quote s then UB
    else let r := result_w (t_out t) (fun w => string_loop w [] s) in Ok (with_out t (fst r), snd r)
  else Ok (t, false).

(** ** Units (srcml_unit.cpp). [wu_trans]: unit_translator; everything else is in the unit object. *)
Record wunit := WUnitObj { wu : uobj; wu_trans : option trans }.
Definition dec_of (n : N) : bytes := (* std::to_string *)
  match n with 0 => [48] | _ =>
    (fix go (f : nat) (n : N) (acc : bytes) : bytes :=
       match f with O => acc | S f => if n =? 0 then acc else go f (n / 10) (48 + n mod 10 :: acc) end) 64%nat n []
  end.
Definition clear_archive (o : N) : N := N.ldiff o OPT_ARCHIVE.
Definition default_to (o : option bytes) (d : bytes) : bytes := match o with Some v => v | None => d end.
(** the offsets of the first occurrence of a text / byte *)
Fixpoint strstr (s p : bytes) : option nat :=
  if beqb (firstn (length p) s) p then Some O
  else match s with [] => None | _ :: t => option_map S (strstr t p) end.
Fixpoint strchr (s : bytes) (c : N) : option nat :=
  match s with [] => None | x :: t => if x =? c then Some O else option_map S (strchr t c) end.
(** srcml_unit.cpp:935-942: begin and end of the first namespace declaration; arithmetic on null is [UB] *)
Definition insert_range (s : bytes) : outcome (Z * Z) :=
  match strstr s (txt "xmlns") with
  | None => UB
  | Some p => match strchr (skipn (p + 1) s) 34 with
              | None => UB
              | Some q => let first := (p + 1 + q)%nat in
                          match strchr (skipn (first + 1) s) 34 with
                          | None => UB
                          | Some r => Ok (Z.of_nat p, Z.of_nat (first + 1 + r) + 2)%Z
                          end
              end
  end.
Definition trans_out (t : trans) : bytes := match so_w (t_out t) with Some w => w_out w | None => so_final (t_out t) end.
(** the start tag arguments srcml_translator.cpp:267-286 takes from the unit and its archive *)
Definition start_args (a : archive) (u : uobj) (revision : option bytes) : tag_args :=
  let s := uo_settings u in
  TagArgs (match u_language s with Some l => Some l | None => a_language a end) revision (uo_url u) (u_filename s) (u_version s)
          (u_timestamp s) (u_hash s) (u_encoding s) (uo_attributes u) false.
Definition set_content (u : uobj) (l : option (list ns)) (srcml : bytes) (read_body : bool) (src : option bytes) (content ins : Z * Z) (loc : Z) : uobj :=
  UObj (uo_archive u) (uo_settings u) (uo_revision u) (uo_url u) (uo_attributes u) (uo_derived u) l
       (uo_output u) (uo_translator u) (uo_read_header u) read_body srcml src (uo_raw u) (uo_fragment u) content ins loc (uo_error u).
(** srcml_unit.cpp:873-945 [srcml_write_start_unit]. A translator already there is closed and dropped with its output. *)
Definition write_start_unit (a : archive) (u : wunit) : outcome (status * wunit) :=
  let l := match uo_namespaces (wu u) with Some l => l | None => a_namespaces a end in
  let t := new_trans (default_to (a_encoding a) (txt "UTF-8")) (clear_archive (a_options a)) l None (dec_of (a_tabstop a))
             (uo_revision (wu u)) (uo_url (wu u)) (u_filename (uo_settings (wu u))) (u_version (uo_settings (wu u)))
             (uo_attributes (wu u)) (a_macros a) in
  let t := Trans (start_unit (t_out t) (start_args a (wu u) (t_revision t))) false true 0
             (t_revision t) (t_url t) (t_filename t) (t_version t) (t_attributes t) in
  obind (insert_range (trans_out t)) (fun ins =>
    Ok (ST_OK, WUnitObj (set_content (wu u) (Some l) (uo_srcml (wu u)) (uo_read_body (wu u)) (uo_src (wu u))
                          (Z.of_nat (length (trans_out t)) + 1, snd (uo_content (wu u)))%Z ins (uo_loc (wu u))) (Some t))).

(** char* uses see the text up to the first NUL: [upto_nul] (Text_Model) *)
(** The text of a unit document with its markup removed and references decoded (extract_src, srcml_unit.cpp) is a parameter
    of write_end_unit: [extract]. *)
(** srcml_unit.cpp:958-1030 [srcml_write_end_unit]. With a negative depth the loop at 967 counts down through all
    ints and overflows: [UB]. *)
Definition write_end_unit (extract : bytes -> bytes) (a : archive) (u : wunit) : outcome (status * wunit) :=
  match wu_trans u with
  | None => Ok (ST_INVALID_INPUT, u)
  | Some t =>
      if (t_depth t <? 0)%Z then UB else
      let t := end_elements (Z.to_nat (t_depth t)) t in
      let content_begin := fst (uo_content (wu u)) in
      let content_end := (Z.of_nat (length (trans_out t)) + 1)%Z in
      let r := add_end_unit t in
      let u1 := WUnitObj (set_content (wu u) (uo_namespaces (wu u)) (uo_srcml (wu u)) (uo_read_body (wu u)) (uo_src (wu u))
                           (content_begin, content_end) (uo_insert (wu u)) (uo_loc (wu u))) (Some (fst r)) in
      if negb (snd r) then Ok (ST_INVALID_INPUT, u1) else
      let srcml := trans_out (fst r) in
      obind (write_start_unit a u1) (fun r2 =>
        let u2 := snd r2 in
        match wu_trans u2 with
        | None => UB
        | Some t2 =>
            let start_tag := trans_out t2 in
            let doc := upto_nul start_tag ++
                       (if (content_begin =? content_end)%Z then txt "/>" else [62] ++ upto_nul (skipn (Z.to_nat content_begin) srcml)) in
            let new_begin := fst (uo_content (wu u2)) in
            let src := match uo_src (wu u2) with Some s => s | None => extract doc end in
            Ok (ST_OK, WUnitObj (set_content (wu u2) (uo_namespaces (wu u2)) doc true (Some src)
                                  (new_begin, content_end + (new_begin - content_begin))%Z (uo_insert (wu u2)) (Z.of_nat (loc_written src))) None)
        end)
  end.

(** By-element calls: srcml_unit.cpp:1042-1145. The arguments the functions require to be non-null are given. *)
Inductive wcall_el :=
| EStart (prefix : option bytes) (name : bytes) (uri : option bytes)
| EEnd
| ENamespace (prefix : option bytes) (uri : bytes)
| EAttribute (prefix : option bytes) (name : bytes) (uri : option bytes) (content : bytes)
| EString (writable : bool) (content : bytes).
Definition el_status (b : bool) : status := if b then ST_OK else ST_INVALID_INPUT.
Definition write_call (u : wunit) (c : wcall_el) : outcome (status * wunit) :=
  match wu_trans u with
  | None => Ok (ST_INVALID_INPUT, u)
  | Some t =>
      let fin (r : trans * bool) := Ok (el_status (snd r), WUnitObj (wu u) (Some (fst r))) in
      match c with
      | EStart p n uri => fin (add_start_element t p n uri)
      | EEnd => fin (add_end_element t)
      | ENamespace p uri => fin (add_namespace t p uri)
      | EAttribute p n uri v => fin (add_attribute t p n uri v)
      | EString w s => obind (add_string t w s) fin
      end
  end.
Fixpoint write_calls (u : wunit) (cs : list wcall_el) : outcome (list status * wunit) :=
  match cs with
  | [] => Ok ([], u)
  | c :: cs => obind (write_call u c) (fun r => obind (write_calls (snd r) cs) (fun q => Ok (fst r :: fst q, snd q)))
  end.
(** a whole unit written by element *)
Definition write_by_element (extract : bytes -> bytes) (a : archive) (u : wunit) (cs : list wcall_el) : outcome (status * wunit) :=
  obind (write_start_unit a u) (fun r => obind (write_calls (snd r) cs) (fun q => write_end_unit extract a (snd q))).

(** srcml_unit.cpp:437-465 [srcml_unit_get_srcml_inner] without revisions and before it is cached; a range outside the string is [UB] *)
Definition inner (u : uobj) : outcome bytes :=
  let start := fst (uo_content u) in
  let size := (snd (uo_content u) - start - 1)%Z in
  if (size <=? 0)%Z then Ok []
  else if (start <? 0)%Z || (Z.of_nat (length (uo_srcml u)) <? start)%Z then UB
  else Ok (firstn (Z.to_nat size) (skipn (Z.to_nat start) (uo_srcml u))).
(** srcml_unit.cpp:370-425 [srcml_unit_get_srcml_outer], same restrictions; std::string(pos, n) beyond the end throws: [UB] here *)
Definition substr (s : bytes) (pos n : Z) : outcome bytes :=
  if (pos <? 0)%Z || (Z.of_nat (length s) <? pos)%Z then UB
  else Ok (firstn (if (n <? 0)%Z then length s else Z.to_nat n) (skipn (Z.to_nat pos) s)).
Definition outer (u : uobj) : outcome bytes :=
  let s := uo_srcml u in
  let range :=
    match strchr s 62 with
    | None => None
    | Some pos =>
        match strstr (firstn pos s) (txt " url=") with
        | None => None
        | Some p => Some (Z.of_nat p, match strchr (skipn (p + 6) (firstn pos s)) 34 with
                                      | Some q => Z.of_nat (p + 6 + q) + 1
                                      | None => 0 end)%Z     (* npos + 1 *)
        end
    end in
  let size := Z.of_nat (length s) in
  let ib := fst (uo_insert u) in let ie := snd (uo_insert u) in
  obind (substr s 0 ib) (fun h =>
    match range with
    | None => obind (substr s ie (size - ie)) (fun x => Ok (h ++ x))
    | Some (b, e) => if (b =? 0)%Z then obind (substr s ie (size - ie)) (fun x => Ok (h ++ x))
                     else obind (substr s ie (b - ie)) (fun x => obind (substr s e (size - e)) (fun y => Ok (h ++ x ++ y)))
    end).

(** ** Parsing: the tokens srcMLOutput writes (srcMLOutput.cpp:430-590) *)
Inductive token :=
| TStart (ns_index : nat) (name : bytes) (al : list (bytes * bytes)) (position : bytes) (* position: what addPosition writes, C07 *)
| TEnd
| TEmpty (ns_index : nat) (name : bytes) (al : list (bytes * bytes))
| TText (s : bytes).
(** srcMLOutput.cpp:533-590 processToken / processText; C05 is about the text *)
Definition token_prefix (o : sout) (i : nat) : option bytes := match prefix_at i (so_ns o) with [] => None | p => Some p end.
Definition out_token (o : sout) (t : token) : sout :=
  match t with
  | TStart i name al position =>
      let p := token_prefix o i in
      on_w (with_ns o (mark i (so_ns o))) (fun w =>
        let w := add_attrs (fst (start_element_ns w p name None)) al in
        Writer (w_out w ++ position) (w_nodes w) (w_intag w) (w_ns w))
  | TEnd => on_w o (fun w => fst (end_element w))
  | TEmpty i name al =>
      let p := token_prefix o i in
      on_w (with_ns o (mark i (so_ns o))) (fun w => fst (end_element (add_attrs (fst (start_element_ns w p name None)) al)))
  | TText s => on_w o (fun w => fst (write_raw w (process_text s)))
  end.
(** srcml_unit.cpp:487-545 [srcml_unit_parse_internal] once the language is decided (C18) and the input is open; [tokens] is
    what the parser delivers, [hash] and [encoding] what the reader established (C02, C03). The hash is assigned when
    the input ends, before the start tag is redone. *)
Definition set_reader_result (u : uobj) (hash encoding : option bytes) : uobj :=
  let s := uo_settings u in
  UObj (uo_archive u) (USettings encoding (u_language s) (u_filename s) (u_version s) (u_timestamp s) hash (u_eol s))
       (uo_revision u) (uo_url u) (uo_attributes u) (uo_derived u) (uo_namespaces u)
       (uo_output u) (uo_translator u) (uo_read_header u) (uo_read_body u) (uo_srcml u) (uo_src u) (uo_raw u) (uo_fragment u)
       (uo_content u) (uo_insert u) (uo_loc u) (uo_error u).
Definition set_parse_start (u : uobj) (lang : N) (url encoding : option bytes) : uobj :=
  let s := uo_settings u in
  UObj (uo_archive u) (USettings encoding (u_language s) (u_filename s) (u_version s) (u_timestamp s) (u_hash s) (u_eol s))
       (uo_revision u) url (uo_attributes u) lang (uo_namespaces u)
       (uo_output u) (uo_translator u) (uo_read_header u) (uo_read_body u) (uo_srcml u) (uo_src u) (uo_raw u) (uo_fragment u)
       (uo_content u) (uo_insert u) (uo_loc u) (uo_error u).
Definition set_namespaces (u : uobj) (l : list ns) : uobj :=
  UObj (uo_archive u) (uo_settings u) (uo_revision u) (uo_url u) (uo_attributes u) (uo_derived u) (Some l)
       (uo_output u) (uo_translator u) (uo_read_header u) (uo_read_body u) (uo_srcml u) (uo_src u) (uo_raw u) (uo_fragment u)
       (uo_content u) (uo_insert u) (uo_loc u) (uo_error u).
Definition parse_unit (extract : bytes -> bytes) (a : archive) (u : wunit) (lang : N) (encoding hash : option bytes) (tokens : list token)
    : outcome (status * wunit) :=
  let u := WUnitObj (set_parse_start (wu u) lang (a_url a) encoding) (wu_trans u) in
  obind (write_start_unit a u) (fun r =>
    match wu_trans (snd r) with
    | None => UB
    | Some t =>
        let t := with_out t (fold_left out_token tokens (t_out t)) in
        let u := set_reader_result (wu (snd r)) hash encoding in
        let u := set_namespaces u (so_ns (t_out t)) in
        write_end_unit extract a (WUnitObj u (Some t))
    end).

(** ** Archive output (srcml_translator.cpp:194-255 add_unit) *)
(** removing the srcDiff namespace when a revision is selected *)
Definition erase_uri (l : list ns) (u : bytes) : list ns := filter (fun n => negb (beqb (ns_uri n) u)) l.
Definition rev_attr (r : option N) (v : option bytes) : option bytes :=
  match v with None => None | Some s => Some match r with Some k => attribute_revision s (N.to_nat k) | None => s end end.
Definition unit_args (a : archive) (t : trans) (u : uobj) : tag_args :=
  let s := uo_settings u in
  let arch := opt (so_options (t_out t)) B_ARCHIVE in
  let r := a_revision_number a in
  TagArgs (Some (match u_language s with Some l => l | None => getLanguageString (uo_derived u) end))
          (match (if arch then uo_revision u else None) with Some v => Some v | None => t_revision t end)
          (if arch then None else rev_attr r (uo_url u))
          (rev_attr r (u_filename s)) (rev_attr r (u_version s)) (rev_attr r (u_timestamp s)) (rev_attr r (u_hash s)) (rev_attr r (u_encoding s))
          (uo_attributes u) false.
(** the part of the unit's srcML between its tags as add_unit reads it (out-of-range offsets are [UB]) *)
Definition unit_body (u : uobj) : outcome bytes := inner u.
(** [a]: the archive of the unit. Revision extraction of the body (C28) applies when the archive has a
    revision and the srcDiff namespace. *)
Definition add_unit (a : archive) (t : trans) (u : uobj) : outcome (trans * bool) :=
  if t_outputting t then Ok (t, false) else
  let t := prepare_output t in
  let t := if opt (so_options (t_out t)) B_ARCHIVE then with_out t (separator (t_out t)) else t in
  let l := match uo_namespaces u with Some l => merge (a_namespaces a) l | None => a_namespaces a end in
  let l := match a_revision_number a with Some _ => erase_uri l DIFF_URI | None => l end in
  let o := init_namespaces (t_out t) l in
  let o := start_unit o (unit_args a t u) in
  obind (unit_body u) (fun body =>
    let diff := match a_revision_number a with
                | Some _ => match find_uri (a_namespaces a) DIFF_URI with Some _ => true | None => false end
                | None => false end in
    obind (if diff then extract_revision body (match a_revision_number a with Some k => N.to_nat k | None => O end) false else Ok body) (fun body =>
      let o := if diff || negb (match body with [] => true | _ => false end) then on_w o (fun w => fst (write_raw w body)) else o in
      let o := on_w o (fun w => fst (end_element w)) in
      Ok (with_out t o, true))).
