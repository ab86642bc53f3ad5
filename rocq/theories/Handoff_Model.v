(** Model of the streaming reader: src/libsrcml/srcml_sax2_reader.cpp and the synchronization in
    srcml_reader_handler.hpp, as a transition system over all interleavings of the caller's thread and
    the parsing thread.  One transition is one mutex-protected section, or one piece of local work; the
    section of resume_and_wait and wait is split before cond.wait, because done() does not lock.
    External: std::mutex, std::condition_variable (spurious wake-ups are separate transitions), libxml2:
    what the parser calls next is a parameter, a machine (Sax_Model.v gives srcML's).  Unsynchronized
    accesses to the flags are taken as atomic. *)
From Verif Require Import Base.

(** * The parser, as the handler sees it *)
(** What it does next: a call of the handler (startRoot, startUnit with the attributes, endUnit with the
    srcML collected, endRoot), or the end of parse(), with an error for which start_routine calls done()
    (srcml_sax2_reader.cpp:37-56) or without. *)
Inductive out (H B : Type) := ORoot | OUnit (h : H) | OEnd (b : B) | OEndRoot | OFin (error : bool).
Arguments ORoot {H B}. Arguments OUnit {H B} h. Arguments OEnd {H B} b. Arguments OEndRoot {H B}. Arguments OFin {H B} error.
(** [after x collect stopped]: the parser after that call: [collect], what startUnit leaves in
    state->collect_unit_body; [stopped], whether stop_parser was called. *)
Record machine (X H B : Type) := Machine { next : X -> out H B; after : X -> bool -> bool -> X }.
Arguments Machine {X H B}. Arguments next {X H B}. Arguments after {X H B}.

(** * The two threads *)
(** srcml_reader_handler.hpp:94-110. *)
Record flags := Flags { is_done : bool; read_root : bool; header : bool; body : bool; terminate : bool; wait_root : bool }.
Definition set_done f := Flags true (read_root f) (header f) (body f) (terminate f) (wait_root f).
Definition set_read_root f := Flags (is_done f) true (header f) (body f) (terminate f) (wait_root f).
Definition set_collect h b f := Flags (is_done f) (read_root f) h b (terminate f) (wait_root f).
Definition set_terminate f := Flags (is_done f) (read_root f) (header f) (body f) true (wait_root f).
Definition clear_wait_root f := Flags (is_done f) (read_root f) (header f) (body f) (terminate f) false.

(** What the caller asks for: srcml_archive_read_unit, srcml_archive_skip_unit. *)
Inductive op := Read | Skip.
(** Where it waits: in the constructor, in read_header of the unit [u] (for a read or a skip), in
    read_body of the unit [u]. *)
Inductive stage := Ctor | Hdr (reading : bool) (u : nat) | Bdy (u : nat).
(** The caller: in the constructor, before wait(); between calls; about to call resume_and_wait; there,
    the mutex held, about to wait; waiting; back from it; about to check is_done in read_body; in the
    destructor: stop(), its resume(), join(); gone. *)
Inductive caller := CNew | CIdle | CCall (s : stage) | CHold (s : stage) | CWait (s : stage) | CBack (s : stage)
  | CBody (u : nat) | CStop | CNotify | CJoin | CGone.
(** The parsing thread: running; in startUnit, waiting with the root read, and back; about to wait with
    the header, waiting, back; the same with the body in endUnit; in done(), before the assignment and
    before the notification; ended. *)
Inductive parser (X H : Type) := PRun (x : X) | PRootWait (x : X) (h : H) (stopped : bool) | PRootBack (x : X) (h : H) (stopped : bool)
  | PHead (x : X) | PHeadWait (x : X) (stopped : bool) | PHeadBack (x : X) (stopped : bool)
  | PTail (x : X) | PTailWait (x : X) (stopped : bool) | PTailBack (x : X) (stopped : bool)
  | PDone | PDoneNotify | PExit.
Arguments PRun {X H} x. Arguments PRootWait {X H} x h stopped. Arguments PRootBack {X H} x h stopped.
Arguments PHead {X H} x. Arguments PHeadWait {X H} x stopped. Arguments PHeadBack {X H} x stopped.
Arguments PTail {X H} x. Arguments PTailWait {X H} x stopped. Arguments PTailBack {X H} x stopped.
Arguments PDone {X H}. Arguments PDoneNotify {X H}. Arguments PExit {X H}.

(** What the caller gets: a unit with its header and body, or a null pointer; 1 or 0. *)
Inductive result (H B : Type) := RUnit (h : option H) (b : option B) | RNull | RSkip (ok : bool).
Arguments RUnit {H B} h b. Arguments RNull {H B}. Arguments RSkip {H B} ok.

Record sys (X H B : Type) := Sys
  { prog : list op;                          (* calls the caller has still to make; then it closes *)
    cl : caller;
    pa : parser X H;
    fl : flags;
    hunit : option nat;                      (* handler.unit *)
    units : list (option H * option B);      (* the units created so far *)
    results : list (result H B);
    fault : bool }.                          (* a unit was written to which nobody is reading *)
Arguments Sys {X H B}. Arguments prog {X H B}. Arguments cl {X H B}. Arguments pa {X H B}. Arguments fl {X H B}.
Arguments hunit {X H B}. Arguments units {X H B}. Arguments results {X H B}. Arguments fault {X H B}.

Definition set_cl {X H B} c (s : sys X H B) := Sys (prog s) c (pa s) (fl s) (hunit s) (units s) (results s) (fault s).
Definition set_pa {X H B} (p : parser X H) (s : sys X H B) := Sys (prog s) (cl s) p (fl s) (hunit s) (units s) (results s) (fault s).
Definition set_fl {X H B} f (s : sys X H B) := Sys (prog s) (cl s) (pa s) f (hunit s) (units s) (results s) (fault s).
Definition set_unit {X H B} u (s : sys X H B) := Sys (prog s) (cl s) (pa s) (fl s) u (units s) (results s) (fault s).
Definition set_units {X H B} us fa (s : sys X H B) := Sys (prog s) (cl s) (pa s) (fl s) (hunit s) us (results s) fa.
Definition set_prog {X H B} p (s : sys X H B) := Sys p (cl s) (pa s) (fl s) (hunit s) (units s) (results s) (fault s).
Definition add_result {X H B} r (s : sys X H B) := Sys (prog s) (cl s) (pa s) (fl s) (hunit s) (units s) (results s ++ [r]) (fault s).

(** cond.notify_one by the parsing thread, and by the caller. *)
Definition wake_caller {X H B} (s : sys X H B) := match cl s with CWait st => set_cl (CBack st) s | _ => s end.
Definition wake_parser {X H B} (s : sys X H B) :=
  match pa s with
  | PRootWait x h t => set_pa (PRootBack x h t) s
  | PHeadWait x t => set_pa (PHeadBack x t) s
  | PTailWait x t => set_pa (PTailBack x t) s
  | _ => s
  end.
(** The mutex is taken: only the caller keeps it from one transition to the next. *)
Definition locked {X H B} (s : sys X H B) := match cl s with CHold _ => true | _ => false end.

(** * The caller *)
(** The end of a read_unit or skip_unit without a unit. *)
Definition nothing {H B} (reading : bool) : result H B := if reading then RNull else RSkip false.
Definition is_read o := match o with Read => true | Skip => false end.

Definition caller_step {X H B} (s : sys X H B) : option (sys X H B) :=
  match cl s with
  | CNew =>                                                        (* handler 153-162: wait *)
      if is_done (fl s) then Some (set_cl CIdle s)
      else if wait_root (fl s) then Some (set_cl (CHold Ctor) s) else Some (set_cl CIdle s)
  | CIdle =>
      match prog s with
      | [] => Some (set_cl CStop s)
      | o :: r =>                                                  (* reader 105-114: read_header of a new unit; archive 1275-1279, 1308-1310 *)
          let u := length (units s) in
          let s := set_unit (Some u) (set_units (units s ++ [(None, None)]) (fault s) (set_prog r s)) in
          if is_done (fl s) then Some (add_result (nothing (is_read o)) s)
          else Some (set_cl (CCall (Hdr (is_read o) u)) (set_fl (set_collect true false (fl s)) s))
      end
  | CCall st =>                                                    (* handler 181-189: resume_and_wait *)
      let s := wake_parser s in
      if is_done (fl s) then Some (set_cl (CBack st) s) else Some (set_cl (CHold st) s)
  | CHold st => Some (set_cl (CWait st) s)
  | CWait _ => None
  | CBack Ctor => Some (set_cl CIdle s)
  | CBack (Hdr reading u) =>                                       (* reader 115-127 *)
      let s := set_fl (set_collect false false (fl s)) s in
      if is_done (fl s) then Some (set_cl CIdle (add_result (nothing reading) s))
      else let s := set_unit None s in
           if reading then Some (set_cl (CBody u) s) else Some (set_cl CIdle (add_result (RSkip true) s))
  | CBody u =>                                                     (* reader 176-183 *)
      if is_done (fl s) then Some (set_cl CIdle (add_result RNull s))
      else Some (set_cl (CCall (Bdy u)) (set_unit (Some u) (set_fl (set_collect (header (fl s)) true (fl s)) s)))
  | CBack (Bdy u) =>                                               (* reader 183-191 *)
      let s := set_fl (set_collect (header (fl s)) false (fl s)) s in
      if is_done (fl s) then Some (set_cl CIdle (add_result RNull s))
      else match nth_error (units s) u with
           | Some (h, b) => Some (set_cl CIdle (add_result (RUnit h b) s))
           | None => None
           end
  | CStop => Some (set_cl CNotify (set_fl (set_terminate (fl s)) s))   (* handler 209-218: stop *)
  | CNotify => Some (set_cl CJoin (wake_parser s))
  | CJoin => match pa s with PExit => Some (set_cl CGone s) | _ => None end
  | CGone => None
  end.

(** * The parsing thread *)
(** Writing to the unit the handler points to: somebody must be reading it. *)
Definition reading_unit (c : caller) : option nat :=
  match c with CHold (Hdr _ u) | CWait (Hdr _ u) | CHold (Bdy u) | CWait (Bdy u) => Some u | _ => None end.
Definition put {A} (i : nat) (x : A) (l : list A) := firstn i l ++ x :: skipn (S i) l.
Definition write_unit {X H B} (f : option H * option B -> option H * option B) (s : sys X H B) :=
  match hunit s, reading_unit (cl s) with
  | Some u, Some v =>
      match nth_error (units s) u with
      | Some old => set_units (put u (f old) (units s)) (fault s || negb (u =? v)) s
      | None => set_units (units s) true s
      end
  | _, _ => set_units (units s) true s
  end.
(** stop_parser, handler 141-145, if [terminate]. *)
Definition stop_if {X H B} (b : bool) (s : sys X H B) := if b then set_fl (set_done (fl s)) s else s.

Definition parser_step {X H B} (M : machine X H B) (s : sys X H B) : option (sys X H B) :=
  let t := terminate (fl s) in
  match pa s with
  | PRun x =>
      match next M x with
      | ORoot => Some (set_pa (PRun (after M x false false)) s)
      | OUnit h =>
          if read_root (fl s)
          then                                                     (* handler 369-393 *)
            let s := write_unit (fun u => (Some h, snd u)) s in
            if header (fl s) then Some (set_pa (PHead x) s)
            else Some (set_pa (PRun (after M x (body (fl s)) t)) (stop_if t s))
          else if locked s then None                               (* handler 349-358 *)
          else let s := stop_if t s in
               Some (set_pa (PRootWait x h t) (wake_caller (set_fl (clear_wait_root (fl s)) s)))
      | OEnd b =>
          if body (fl s) then Some (set_pa (PTail x) (write_unit (fun u => (fst u, Some b)) s))     (* handler 448-477 *)
          else Some (set_pa (PRun (after M x false t)) (stop_if t s))
      | OEndRoot =>                                                (* handler 415-424 *)
          if locked s then None
          else Some (set_pa (PRun (after M x false t)) (wake_caller (set_fl (set_done (fl s)) s)))
      | OFin e => Some (set_pa (if e then PDone else PExit) s)     (* reader 39-56 *)
      end
  | PRootWait _ _ _ | PHeadWait _ _ | PTailWait _ _ => None
  | PRootBack x h st =>                                            (* handler 358-377 *)
      let s := set_fl (set_read_root (fl s)) s in
      if t then Some (set_pa (PRun (after M x true true)) (stop_if true s))
      else let s := write_unit (fun u => (Some h, snd u)) s in
           if header (fl s) then Some (set_pa (PHead x) s)
           else Some (set_pa (PRun (after M x (body (fl s)) st)) s)
  | PHead x =>                                                     (* handler 379-385 *)
      if locked s then None
      else Some (set_pa (PHeadWait x t) (wake_caller (stop_if t s)))
  | PHeadBack x st =>                                              (* handler 388-393 *)
      Some (set_pa (PRun (after M x (body (fl s)) (st || t))) (stop_if t s))
  | PTail x =>                                                     (* handler 480-483 *)
      if locked s then None
      else Some (set_pa (PTailWait x t) (wake_caller (stop_if t s)))
  | PTailBack x st => Some (set_pa (PRun (after M x false (st || t))) (stop_if t s))     (* handler 486-487 *)
  | PDone => Some (set_pa PDoneNotify (set_fl (set_done (fl s)) s))      (* handler 196-201: done *)
  | PDoneNotify => Some (set_pa PExit (wake_caller s))
  | PExit => None
  end.

Inductive label := Caller | Parser | SpuriousC | SpuriousP.
Definition step {X H B} (M : machine X H B) (l : label) (s : sys X H B) : option (sys X H B) :=
  match l with
  | Caller => caller_step s
  | Parser => parser_step M s
  | SpuriousC => match cl s with CWait st => Some (set_cl (CBack st) s) | _ => None end
  | SpuriousP => match pa s with PRootWait _ _ _ | PHeadWait _ _ | PTailWait _ _ => Some (wake_parser s) | _ => None end
  end.
Fixpoint steps {X H B} (M : machine X H B) (ls : list label) (s : sys X H B) : option (sys X H B) :=
  match ls with
  | [] => Some s
  | l :: ls => match step M l s with Some s' => steps M ls s' | None => None end
  end.

(** The constructor has started the thread, with the parser at [x]. *)
Definition open {X H B} (x : X) (ops : list op) : sys X H B :=
  Sys ops CNew (PRun x) (Flags false false false false false true) None [] [] false.
