(** Model of src/libsrcml/sax2_srcsax_handler.cpp: how the callbacks of libxml2 become calls of the
    reader's handler, and how the srcML and the text of a unit are collected from libxml2's buffer.
    External: libxml2.  A document is the list of its events with their texts; [cur] is ctxt->input->cur,
    as an offset in the document (after the XML declaration).  update_ctx (86-104), which follows
    libxml2's moves of its buffer, is taken to be right.  Not modelled: offsets beyond int, what startRoot
    and metaTag put into the archive. *)
From Verif Require Import Base Text_Model Api_Model Writer_Model Handoff_Model.

(** * Events *)
(** A start tag: its text up to the closing bracket, exclusive. *)
Record tag := Tag { t_name : bytes; t_prefix : option bytes; t_ns : list (option bytes * bytes);
  t_attrs : list (bytes * bytes); t_raw : bytes; t_empty : bool }.
(** [raw]: the text in the document.  An empty element has the start [t_raw] and the end "/>".  Character
    data is reported before libxml2 advances over it ([plain]: the text is then the same) or after.
    [XSkip]: blanks outside the root element, not reported. *)
Inductive xev := XStart (t : tag) | XEnd (name raw : bytes) | XText (plain : bool) (raw text : bytes)
  | XComment (raw value : bytes) | XCData (raw value : bytes) | XPI (raw : bytes) | XSkip (raw : bytes).

(** * State *)
(** The function libxml2 calls at start tags, and for characters. *)
Inductive starter := SRoot | SFirst | SElement | SUnit | SNone.
Inductive chars := CUnit | CRoot | CNone.
(** sax2_srcsax_handler.hpp:60-104, srcsax.hpp:45, the context's callbacks (comments, CDATA and
    processing instructions are switched together), nameNr, and the document. *)
Record sst := Sst
  { doc : bytes; cur : nat; base : nat; depth : nat;
    sp : starter; cp : chars; on : bool;
    is_archive : bool; collect : bool; rootcalled : bool;
    root : list (bytes * bytes); rootns : bytes;
    srcml : bytes; src : bytes; loc : nat;
    cbegin : nat; cend : nat; ibegin : nat; iend : nat;
    cpp_prefix : option bytes; bad : bool }.
Definition set_pos c b s := Sst (doc s) c b (depth s) (sp s) (cp s) (on s) (is_archive s) (collect s) (rootcalled s) (root s) (rootns s) (srcml s) (src s) (loc s) (cbegin s) (cend s) (ibegin s) (iend s) (cpp_prefix s) (bad s).
Definition set_depth d s := Sst (doc s) (cur s) (base s) d (sp s) (cp s) (on s) (is_archive s) (collect s) (rootcalled s) (root s) (rootns s) (srcml s) (src s) (loc s) (cbegin s) (cend s) (ibegin s) (iend s) (cpp_prefix s) (bad s).
Definition set_ptr a c o s := Sst (doc s) (cur s) (base s) (depth s) a c o (is_archive s) (collect s) (rootcalled s) (root s) (rootns s) (srcml s) (src s) (loc s) (cbegin s) (cend s) (ibegin s) (iend s) (cpp_prefix s) (bad s).
Definition set_archive a rc s := Sst (doc s) (cur s) (base s) (depth s) (sp s) (cp s) (on s) a (collect s) rc (root s) (rootns s) (srcml s) (src s) (loc s) (cbegin s) (cend s) (ibegin s) (iend s) (cpp_prefix s) (bad s).
Definition set_collecting c s := Sst (doc s) (cur s) (base s) (depth s) (sp s) (cp s) (on s) (is_archive s) c (rootcalled s) (root s) (rootns s) (srcml s) (src s) (loc s) (cbegin s) (cend s) (ibegin s) (iend s) (cpp_prefix s) (bad s).
Definition set_root t n s := Sst (doc s) (cur s) (base s) (depth s) (sp s) (cp s) (on s) (is_archive s) (collect s) (rootcalled s) t n (srcml s) (src s) (loc s) (cbegin s) (cend s) (ibegin s) (iend s) (cpp_prefix s) (bad s).
Definition set_text x y l s := Sst (doc s) (cur s) (base s) (depth s) (sp s) (cp s) (on s) (is_archive s) (collect s) (rootcalled s) (root s) (rootns s) x y l (cbegin s) (cend s) (ibegin s) (iend s) (cpp_prefix s) (bad s).
Definition set_marks a b c d s := Sst (doc s) (cur s) (base s) (depth s) (sp s) (cp s) (on s) (is_archive s) (collect s) (rootcalled s) (root s) (rootns s) (srcml s) (src s) (loc s) a b c d (cpp_prefix s) (bad s).
Definition set_cpp p s := Sst (doc s) (cur s) (base s) (depth s) (sp s) (cp s) (on s) (is_archive s) (collect s) (rootcalled s) (root s) (rootns s) (srcml s) (src s) (loc s) (cbegin s) (cend s) (ibegin s) (iend s) p (bad s).
Definition set_bad s := Sst (doc s) (cur s) (base s) (depth s) (sp s) (cp s) (on s) (is_archive s) (collect s) (rootcalled s) (root s) (rootns s) (srcml s) (src s) (loc s) (cbegin s) (cend s) (ibegin s) (iend s) (cpp_prefix s) true.

(** The document from [a] to [b]. *)
Definition slice (d : bytes) (a b : nat) : bytes := firstn (b - a) (skipn a d).
Definition append x s := set_text (srcml s ++ x) (src s) (loc s) s.
Definition append_src x s := set_text (srcml s) (src s ++ x) (loc s) s.
(** unitsrcml.append(base, cur - base): a negative length throws. *)
Definition append_to (c : nat) s := if c <? base s then set_bad s else append (slice (doc s) (base s) c) s.
Definition base_here s := set_pos (cur s) (cur s) s.
(** "end previous start element" *)
Definition close_bracket s :=
  match nth_error (doc s) (base s) with
  | Some 62%N => set_pos (cur s) (S (base s)) (append [62%N] s)
  | _ => s
  end.

(** What a unit gets at its end, srcml_reader_handler.hpp:450-459. *)
Record ubody := UBody { b_srcml : bytes; b_src : bytes; b_loc : nat; b_content : nat * nat; b_insert : nat * nat }.
Definition body_of s := UBody (srcml s) (src s)
  (match src s with [] => loc s | _ => if N.eqb (last (src s) 0%N) 10 then loc s else S (loc s) end)
  (cbegin s, cend s) (ibegin s, iend s).

(** * Callbacks, as the updates of the state and the calls of the handler they make in turn *)
Inductive micro := MDo (f : sst -> sst) | MRoot | MUnit (a : list (bytes * bytes)) | MEnd | MEndRoot.

(** 441-447. *)
Fixpoint collect_cpp (l : list (option bytes * bytes)) s :=
  match l with
  | [] => s
  | (p, u) :: l =>
      collect_cpp l (if beqb u CPP_URI then match p with Some _ => set_cpp (Some []) s | None => set_bad s end else s)
  end.
(** std::string::find from a position. *)
Definition find_quote (x : bytes) (from : nat) : option nat := option_map (fun i => from + i) (strchr (skipn from x) 34).
Definition next_pos (o : option nat) : nat := match o with Some i => S i | None => 0 end.   (* npos + 1 is 0 *)
(** 478-482. *)
Definition solo_insert_end (x : bytes) : nat :=
  match find_quote x (next_pos (find_quote x (next_pos (strstr x (txt "xmlns"))))) with Some q => q + 2 | None => 1 end.
(** 457: where the tag name and a space end. *)
Definition name_end (t : tag) : nat :=
  1 + length (t_name t) + match t_prefix t with Some p => length p + 1 | None => 0 end + 1.
(** 430-493: start_unit, before the upper-level call; a negative length throws. *)
Definition start_unit_pre (t : tag) s :=
  let s := collect_cpp (t_ns t) s in
  let pos := name_end t in
  let s := set_text (slice (doc s) (base s) (base s + pos)) (src s) (loc s) s in
  let ib := length (srcml s) in
  let s := if is_archive s then append (rootns s) s else s in
  let ie := if is_archive s then length (srcml s) else iend s in
  let s := if cur s + 1 <? base s + pos then set_bad s else append (slice (doc s) (base s + pos) (cur s + 1)) s in
  let ie := if is_archive s then ie else solo_insert_end (srcml s) in
  set_pos (cur s) (cur s + 1) (set_marks (length (srcml s)) (cend s) ib ie s).
(** 502-519: after it. *)
Definition start_unit_post s :=
  if collect s then set_text (srcml s) [] (loc s) (set_ptr SElement CUnit true s) else set_ptr SNone CNone false s.
Definition start_unit (upper : bool) (t : tag) : list micro :=
  MDo (start_unit_pre t) :: (if upper then [MUnit (t_attrs t)] else []) ++ [MDo start_unit_post].

(** 271-314. *)
Definition ns_text (n : option bytes * bytes) : bytes :=
  txt "xmlns" ++ match fst n with Some p => [58%N] ++ p | None => [] end ++ txt "=""" ++ snd n ++ txt """ ".
Definition save_root (t : tag) s :=
  set_root (t_attrs t) (rootns s ++ if collect s then concat (map ns_text (t_ns t)) else []) s.
(** 253-343: start_root; [isempty] 318-328. *)
Definition start_root (t : tag) : list micro :=
  [MDo (save_root t)]
  ++ (if t_empty t then [MDo (set_archive false true); MRoot] else [])
  ++ start_unit false t
  ++ (if t_empty t then [MUnit (t_attrs t)] else [])
  ++ [MDo (fun s => set_ptr SFirst (cp s) (on s) s)].

(** 107-163: reparse_root.  The tag parsed again is the tag; of it the attributes matter, [root]. *)
Definition reparse_root (archive : bool) s : list micro :=
  [MDo (fun s => set_archive (is_archive s) true s); MRoot] ++ (if archive then [] else [MUnit (root s)]).

(** 606-650: start_element. *)
Definition start_element_do (t : tag) s :=
  if collect s then
    let s := close_bracket s in
    if cur s <? base s then s
    else let s := append (slice (doc s) (base s) (cur s)) s in
         base_here (if beqb (t_name t) (txt "escape")
                    then match t_attrs t with (_, v) :: _ => append_src [read_escape v] s | [] => set_bad s end
                    else s)
  else base_here s.
(** 361-411: first_start_element. *)
Definition first_start_element (t : tag) s : list micro :=
  if beqb (t_name t) (txt "macro-list") then []
  else let a := beqb (t_name t) (txt "unit") in
       [MDo (fun s => set_ptr SElement (cp s) (on s) (set_archive a (rootcalled s) s))]
       ++ reparse_root a s
       ++ (if a then MDo (fun s => set_text (srcml s) (src s) 0 s) :: start_unit true t else [MDo (start_element_do t)]).

(** 531-553: end_unit; 565-587: end_root. *)
Definition end_unit : list micro := [MEnd; MDo (fun s => set_ptr SUnit CRoot (on s) s)].
Definition end_root s : list micro :=
  (if rootcalled s then [] else reparse_root (is_archive s) s ++ [MEnd]) ++ [MEndRoot].
(** 667-718: end_element. *)
Definition end_element_do s :=
  let s := if collect s then append (slice (doc s) (base s) (cur s)) (set_marks (cbegin s) (S (length (srcml s))) (ibegin s) (iend s) s) else s in
  base_here s.
Definition end_element (name raw : bytes) s : list micro :=
  if collect s && (cur s + length raw <? base s) then []                     (* 683-687 *)
  else MDo end_element_do ::
       (if beqb name (txt "unit")
        then (if (depth s =? 2) || negb (is_archive s) then end_unit else [])
             ++ (if depth s =? 1 then end_root s else [])
        else []).

(** 761-810: characters_unit. *)
Definition characters_unit (text : bytes) s :=
  if collect s then
    let s := set_text (srcml s) (src s ++ text) (loc s + count_byte 10 text) s in
    let s := close_bracket s in
    if base s =? cur s then set_pos (cur s) (cur s + length text) (append text s)
    else base_here (append_to (cur s) s)
  else s.
Definition characters (text : bytes) s :=
  match cp s with CUnit => characters_unit text s | CRoot => base_here s | CNone => s end.
(** 823-846, 858-884, 895-918. *)
Definition comment (value : bytes) s :=
  base_here (if collect s then append (txt "<!--" ++ value ++ txt "-->") s else s).
Definition cdata_block (value : bytes) s := if collect s then base_here (append_src value (append_to (cur s) s)) else s.
Definition processing_instruction s := if collect s then base_here (append_to (cur s) s) else s.

Definition advance_by n s := set_pos (cur s + n) (base s) s.
(** One event. *)
Definition callback (e : xev) (s : sst) : list micro :=
  match e with
  | XStart t =>
      [MDo (advance_by (length (t_raw t)))]
      ++ match sp s with
         | SRoot => start_root t
         | SFirst => first_start_element t s
         | SElement => [MDo (start_element_do t)]
         | SUnit => start_unit true t
         | SNone => []
         end
      ++ [MDo (fun s => set_depth (S (depth s)) (advance_by (if t_empty t then 0 else 1) s))]
  | XEnd n raw => [MDo (advance_by (length raw))] ++ end_element n raw s ++ [MDo (fun s => set_depth (pred (depth s)) s)]
  | XText true raw text => [MDo (characters text); MDo (advance_by (length raw))]
  | XText false raw text => [MDo (advance_by (length raw)); MDo (characters text)]
  | XComment raw value => MDo (advance_by (length raw)) :: if on s then [MDo (comment value)] else []
  | XCData raw value => MDo (advance_by (length raw)) :: if on s then [MDo (cdata_block value)] else []
  | XPI raw => MDo (advance_by (length raw)) :: if on s then [MDo processing_instruction] else []
  | XSkip raw => [MDo (advance_by (length raw))]
  end.

(** * The parser as a machine *)
(** About to make a call, with what remains of the callback and of the document, which ends in an error
    or not; or at the end. *)
Inductive call := KRoot | KUnit (a : list (bytes * bytes)) | KEnd | KEndRoot.
Inductive px := PAt (s : sst) (k : call) (ms : list micro) (evs : list xev) (error : bool) | PFin (error : bool) (s : sst).
Fixpoint run_micros (ms : list micro) (s : sst) : sst * option (call * list micro) :=
  match ms with
  | [] => (s, None)
  | MDo f :: ms => run_micros ms (f s)
  | MRoot :: ms => (s, Some (KRoot, ms))
  | MUnit a :: ms => (s, Some (KUnit a, ms))
  | MEnd :: ms => (s, Some (KEnd, ms))
  | MEndRoot :: ms => (s, Some (KEndRoot, ms))
  end.
Fixpoint advance (evs : list xev) (error : bool) (s : sst) : px :=
  match evs with
  | [] => PFin error s
  | e :: r => match run_micros (callback e s) s with
              | (s, None) => advance r error s
              | (s, Some (k, ms)) => PAt s k ms r error
              end
  end.
Definition resume (ms : list micro) (evs : list xev) (error : bool) (s : sst) : px :=
  match run_micros ms s with
  | (s, None) => advance evs error s
  | (s, Some (k, ms)) => PAt s k ms evs error
  end.
(** An exception or an access outside the text ends the program, here: the parse, without done(). *)
Definition sax_next (x : px) : out (list (bytes * bytes)) ubody :=
  match x with
  | PFin e s => OFin (e && negb (bad s))
  | PAt s k _ _ _ =>
      if bad s then OFin false
      else match k with KRoot => ORoot | KUnit a => OUnit a | KEnd => OEnd (body_of s) | KEndRoot => OEndRoot end
  end.
(** startUnit leaves the collecting flag and a line count of zero (srcml_reader_handler.hpp:375-390);
    stop_parser (srcsax_controller.cpp:180-193) ends the parse after the callback. *)
Definition sax_after (x : px) (c stopped : bool) : px :=
  match x with
  | PFin e s => PFin e s
  | PAt s k ms evs error =>
      let s := match k with KUnit _ => set_text (srcml s) (src s) 0 (set_collecting c s) | _ => s end in
      if stopped then resume ms [] false s else resume ms evs error s
  end.
Definition sax : machine px (list (bytes * bytes)) ubody := Machine sax_next sax_after.

(** * The document *)
Definition xtext (e : xev) : bytes :=
  match e with
  | XStart t => t_raw t ++ if t_empty t then [] else [62%N]
  | XEnd _ raw | XText _ raw _ | XComment raw _ | XCData raw _ | XPI raw | XSkip raw => raw
  end.
Definition text_of (evs : list xev) : bytes := concat (map xtext evs).
(** srcsax_parse: 62-82 and sax2_srcsax_handler.hpp for the initial values. *)
Definition sax_init (d : bytes) : sst :=
  Sst d 0 0 0 SRoot CUnit true false true false [] [] [] [] 0 0 0 0 0 None false.
Definition parse (evs : list xev) (error : bool) : px := advance evs error (sax_init (text_of evs)).
