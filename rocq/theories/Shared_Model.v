(** Model of the variables that all readers of a process share: UNIT_ENTRY, MACRO_LIST_ENTRY and ESCAPE_ENTRY
    (src/libsrcml/sax2_srcsax_handler.cpp:53-55), pointers into libxml2's dictionary of the document whose start_document ran last
    (194-196), with which the callbacks of every reader compare the pointers of their own element names (376, 384, 642, 700).
    Simplified: start_document sets the three at once and a callback runs in one piece (in between, a reader sees more mixtures, never
    fewer); a dictionary is not freed while another reader goes on, so that names in different dictionaries never have the same address. *)
From Verif Require Import Base Text_Model Api_Model Writer_Model Handoff_Model Sax_Model.

(** What the readers of a process do, in turn: [Opens i], start_document of the reader [i]; [Handles i], its callback for the next event
    of its document. *)
Inductive act := Opens (i : nat) | Handles (i : nat).
(** For each event of the reader [i]: whether the variables point into its own dictionary then. *)
Fixpoint mine_at (i : nat) (owner : option nat) (l : list act) : list bool :=
  match l with
  | [] => []
  | Opens j :: l => mine_at i (Some j) l
  | Handles j :: l => if j =? i then match owner with Some o => o =? i | None => false end :: mine_at i owner l else mine_at i owner l
  end.

(** localname == UNIT_ENTRY and so on *)
Definition same (mine : bool) (name entry : bytes) : bool := mine && beqb name entry.
(** 606-650, 361-411 and 667-718, see Sax_Model.v *)
Definition start_element_with (mine : bool) (t : tag) s :=
  if collect s then
    let s := close_bracket s in
    if cur s <? base s then s
    else let s := append (slice (doc s) (base s) (cur s)) s in
         base_here (if same mine (t_name t) (txt "escape")
                    then match t_attrs t with (_, v) :: _ => append_src [read_escape v] s | [] => set_bad s end
                    else s)
  else base_here s.
Definition first_start_element_with (mine : bool) (t : tag) s : list micro :=
  if same mine (t_name t) (txt "macro-list") then []
  else let a := same mine (t_name t) (txt "unit") in
       [MDo (fun s => set_ptr SElement (cp s) (on s) (set_archive a (rootcalled s) s))]
       ++ reparse_root a s
       ++ (if a then MDo (fun s => set_text (srcml s) (src s) 0 s) :: start_unit true t else [MDo (start_element_with mine t)]).
Definition end_element_with (mine : bool) (name raw : bytes) s : list micro :=
  if collect s && (cur s + length raw <? base s) then []
  else MDo end_element_do ::
       (if same mine name (txt "unit")
        then (if (depth s =? 2) || negb (is_archive s) then end_unit else [])
             ++ (if depth s =? 1 then end_root s else [])
        else []).
(** One event, as in Sax_Model.v. *)
Definition callback_with (mine : bool) (e : xev) (s : sst) : list micro :=
  match e with
  | XStart t =>
      [MDo (advance_by (length (t_raw t)))]
      ++ match sp s with
         | SRoot => start_root t
         | SFirst => first_start_element_with mine t s
         | SElement => [MDo (start_element_with mine t)]
         | SUnit => start_unit true t
         | SNone => []
         end
      ++ [MDo (fun s => set_depth (S (depth s)) (advance_by (if t_empty t then 0 else 1) s))]
  | XEnd n raw => [MDo (advance_by (length raw))] ++ end_element_with mine n raw s ++ [MDo (fun s => set_depth (pred (depth s)) s)]
  | _ => callback e s
  end.

(** The parser as a machine: its events with the state of the variables at each of them. *)
Inductive qx := QAt (s : sst) (k : call) (ms : list micro) (evs : list (bool * xev)) (error : bool) | QFin (error : bool) (s : sst).
Fixpoint advance_with (evs : list (bool * xev)) (error : bool) (s : sst) : qx :=
  match evs with
  | [] => QFin error s
  | (mine, e) :: r => match run_micros (callback_with mine e s) s with
                      | (s, None) => advance_with r error s
                      | (s, Some (k, ms)) => QAt s k ms r error
                      end
  end.
Definition resume_with (ms : list micro) (evs : list (bool * xev)) (error : bool) (s : sst) : qx :=
  match run_micros ms s with
  | (s, None) => advance_with evs error s
  | (s, Some (k, ms)) => QAt s k ms evs error
  end.
Definition next_with (x : qx) : out (list (bytes * bytes)) ubody :=
  match x with
  | QFin e s => OFin (e && negb (bad s))
  | QAt s k _ _ _ =>
      if bad s then OFin false
      else match k with KRoot => ORoot | KUnit a => OUnit a | KEnd => OEnd (body_of s) | KEndRoot => OEndRoot end
  end.
Definition after_with (x : qx) (c stopped : bool) : qx :=
  match x with
  | QFin e s => QFin e s
  | QAt s k ms evs error =>
      let s := match k with KUnit _ => set_text (srcml s) (src s) 0 (set_collecting c s) | _ => s end in
      if stopped then resume_with ms [] false s else resume_with ms evs error s
  end.
Definition sax_with : machine qx (list (bytes * bytes)) ubody := Machine next_with after_with.
(** The reader [i] of a process that does [l]. *)
Definition parse_in (l : list act) (i : nat) (evs : list xev) (error : bool) : qx :=
  advance_with (combine (mine_at i None l) evs) error (sax_init (text_of evs)).
