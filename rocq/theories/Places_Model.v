(** Model of the positions kept for the elements when SRCML_OPTION_POSITION is set: what
    StreamMLParser.hpp does with lastline/lastcolumn, slastline/slastcolumn, the saved type
    positions and the stack [ends], for the calls that a parse makes; and
    srcMLOutput::addPosition.

    The parse itself is that of Parser_Model.  [emits] follows it and lists the calls it makes, in
    order; [play] is the bookkeeping of positions for such a list.

    Simplifications: the line and column of a token are given by a function [w] of the number of
    source bytes before it (property C48 says what the lexer computes); numbers are unbounded. *)
From Verif Require Import Base Text_Model Parser_Model Parser_Proofs Parser_Proofs2.

(** A line and a column. *)
Definition point := (Z * Z)%type.

(** STYPE and STYPEPREV (srcMLParser.g:395-690): two of the named element types; which numbers they
    have does not matter. *)
Definition STYPE : etype := Ename 0.
Definition STYPEPREV : etype := Ename 1.

(** The calls on StreamMLParser that touch positions. *)
Inductive acall :=
| Cstart (e : etype) (flush : bool)          (* startElement, startNoSkipElement *)
| Cend (e : etype)                           (* endElement *)
| Cissue (e : etype)                         (* endElement under MODE_ISSUE_EMPTY_AT_POP *)
| Cempty                                     (* emptyElement *)
| Cflush                                     (* flushSkip *)
| Cconsume (t : option ltok) (skipped : bool)(* consume, without the skip tokens that follow; no token: end of file *)
| Cskip (t : ltok)                           (* the skip-token branch of consumeSkippedToken *)
| Ccomplete (e : etype)                      (* completeSkip with a comment open *)
| Cguess (l : list acall)                    (* mark, guessing++, ..., guessing--, rewind *)
| Cregion (l : list acall).                  (* preprocessor, macro call, asm *)

(** The bookkeeping.  [p_at]: source bytes before LT(1).  [p_ends]: the stack ends, a tag made while
    guessing has no identity.  [p_started], [p_ended]: line and column of the start tags, and
    endline and endcolumn written to them, latest first.
    Ghost: [p_tight], no more than skipped tokens and tags without flushing since a token was
    consumed; with each entry of [p_started] whether it was flushed, and with each entry of
    [p_ended] whether [p_tight] held (always for a comment). *)
Record places := Places
  { p_at : nat; p_guess : nat; p_serial : nat;
    p_ends : list (option nat);
    p_last : point; p_slast : point; p_type0 : point; p_type1 : point;
    p_started : list (nat * (etype * bool * point));
    p_ended : list (nat * (etype * bool * point));
    p_tight : bool }.

Definition before (p : point) : point := (fst p, snd p - 1)%Z.

Definition loosen d := Places (p_at d) (p_guess d) (p_serial d) (p_ends d) (p_last d) (p_slast d)
  (p_type0 d) (p_type1 d) (p_started d) (p_ended d) false.

(** pushToken, pushTokenFlush, pushSkipToken (StreamMLParser.hpp:705-733, 774-782): a token counts
    unless guessing. *)
Definition issue d := Places (p_at d) (p_guess d)
  (if 0 <? p_guess d then p_serial d else S (p_serial d)) (p_ends d) (p_last d) (p_slast d)
  (p_type0 d) (p_type1 d) (p_started d) (p_ended d) (p_tight d).

(** A new start tag at [p]: StreamMLParser.hpp:203-217 pushSToken, 219-232 pushSSkipToken, 252-256. *)
Definition begin_at (e : etype) (flush : bool) (p : point) d :=
  let n := if 0 <? p_guess d then None else Some (p_serial d) in
  issue (Places (p_at d) (p_guess d) (p_serial d) (n :: p_ends d) (p_last d) (p_slast d)
    (p_type0 d) (p_type1 d)
    (match n with Some n => (n, (e, flush, p)) :: p_started d | None => p_started d end)
    (p_ended d) (p_tight d)).

(** StreamMLParser.hpp:234-257 pushSTokenFlush. *)
Definition is_type (a b : etype) : bool :=
  match a, b with Ename m, Ename n => m =? n | _, _ => false end.
Definition with_type0 p d := Places (p_at d) (p_guess d) (p_serial d) (p_ends d) (p_last d) (p_slast d)
  p (p_type1 d) (p_started d) (p_ended d) (p_tight d).
Definition begin_flush (w : nat -> point) (e : etype) d :=
  let d := if is_type e STYPE then with_type0 (w (p_at d)) d else d in
  begin_at e true (if is_type e STYPEPREV then p_type0 d else w (p_at d)) d.

(** StreamMLParser.hpp:269-290 pushEToken: the last one pushed onto ends; undefined if there is
    none. *)
Definition finish_at (e : etype) (tight : bool) (q : point) d : outcome places :=
  match p_ends d with
  | [] => UB
  | n :: r => Ok (issue (Places (p_at d) (p_guess d) (p_serial d) r (p_last d) (p_slast d)
      (p_type0 d) (p_type1 d) (p_started d)
      (match n with Some n => (n, (e, tight, q)) :: p_ended d | None => p_ended d end) (p_tight d)))
  end.
Definition with_type1 p d := Places (p_at d) (p_guess d) (p_serial d) (p_ends d) (p_last d) (p_slast d)
  (p_type0 d) p (p_started d) (p_ended d) (p_tight d).
Definition finish (e : etype) d : outcome places :=
  let d := if is_type e STYPE then with_type1 (p_last d) d else d in
  finish_at e (p_tight d) (if is_type e STYPEPREV then p_type1 d else p_last d) d.

(** antlr's consume: LT(1) is the next token. *)
Definition next_at (t : option ltok) d :=
  Places (p_at d + match t with Some t => length (l_text t) | None => 0 end) (p_guess d) (p_serial d)
    (p_ends d) (p_last d) (p_slast d) (p_type0 d) (p_type1 d) (p_started d) (p_ended d) (p_tight d).
(** StreamMLParser.hpp:323-325: lastline, lastcolumn from LT(1). *)
Definition set_last (w : nat -> point) d :=
  Places (p_at d) (p_guess d) (p_serial d) (p_ends d) (before (w (p_at d))) (p_slast d)
    (p_type0 d) (p_type1 d) (p_started d) (p_ended d) (p_tight d).
(** StreamMLParser.hpp:389-390 and so on: slastline, slastcolumn from LT(1). *)
Definition set_slast (w : nat -> point) d :=
  Places (p_at d) (p_guess d) (p_serial d) (p_ends d) (p_last d) (before (w (p_at d)))
    (p_type0 d) (p_type1 d) (p_started d) (p_ended d) (p_tight d).
Definition set_tight b d := Places (p_at d) (p_guess d) (p_serial d) (p_ends d) (p_last d) (p_slast d)
  (p_type0 d) (p_type1 d) (p_started d) (p_ended d) b.

(** StreamMLParser.hpp:315-325 consume, as far as the skip tokens. *)
Definition consume (w : nat -> point) (t : option ltok) (skipped : bool) d :=
  set_tight (negb skipped) (set_last w (next_at t (issue d))).

(** StreamMLParser.hpp:293-305 pushESkipToken, after slastline and slastcolumn were set. *)
Definition finish_skip (w : nat -> point) (e : etype) d : outcome places :=
  let d := set_slast w d in finish_at e true (p_slast d) d.

(** StreamMLParser.hpp:339-500. *)
Definition skip_token (w : nat -> point) (t : ltok) d : outcome places :=
  let text d := next_at (Some t) (issue d) in
  match l_type t with
  | Lopen c => Ok (text (begin_at (Ecomment c) true (w (p_at d)) d))
  | Lwhole => finish_skip w (Ecomment Cblock) (text (begin_at (Ecomment Cblock) true (w (p_at d)) d))
  | Lclose c =>
      match c with
      | Cline | Clinedoxygen =>
          if ends_line (l_text t) then obind (finish_skip w (Ecomment c) d) (fun d => Ok (text d))
          else finish_skip w (Ecomment c) (text d)
      | _ => finish_skip w (Ecomment c) (text d)
      end
  | _ => Ok (text d)
  end.

(** A look-ahead gives back the input and nothing else: lastline and lastcolumn keep what it left. *)
Definition guess_in d := Places (p_at d) (S (p_guess d)) (p_serial d) (p_ends d) (p_last d) (p_slast d)
  (p_type0 d) (p_type1 d) (p_started d) (p_ended d) false.
Definition guess_out d0 d := Places (p_at d0) (pred (p_guess d)) (p_serial d) (p_ends d) (p_last d)
  (p_slast d) (p_type0 d) (p_type1 d) (p_started d) (p_ended d) false.

Definition all_calls (f : acall -> places -> outcome places) : list acall -> places -> outcome places :=
  fix go l d := match l with [] => Ok d | c :: r => obind (f c d) (go r) end.

Fixpoint place (w : nat -> point) (c : acall) (d : places) {struct c} : outcome places :=
  match c with
  | Cstart e true => Ok (begin_flush w e (loosen d))
  | Cstart e false => Ok (begin_at e false (w (p_at d)) d)
  | Cend e => finish e d
  | Cissue e => finish e (begin_at e false (w (p_at d)) d)
  | Cempty => Ok (issue (loosen d))
  | Cflush => Ok (loosen d)
  | Cconsume t b => Ok (consume w t b d)
  | Cskip t => skip_token w t d
  | Ccomplete e => finish_skip w e d
  | Cguess l => obind (all_calls (place w) l (guess_in d)) (fun d' => Ok (guess_out d d'))
  | Cregion l => obind (all_calls (place w) l (loosen d)) (fun d' => Ok (loosen d'))
  end.
Definition play (w : nat -> point) (l : list acall) (d : places) : outcome places := all_calls (place w) l d.

(** StreamMLParser.hpp:58-65, 872-886 and srcMLParser.g:766-769: after construction the unit's start
    tag and an empty tag have been issued. *)
Definition first_places (w : nat -> point) : places :=
  issue (begin_flush w Eunit (Places 0 0 0 [] (0, 0)%Z (0, 0)%Z (0, 0)%Z (0, 0)%Z [] [] false)).

(** srcMLOutput.cpp:497-530 addPosition: the start and the end printed, or nothing if the end comes
    before the start. *)
Definition addPosition (p q : point) : option (point * point) :=
  if ((fst q <? fst p) || ((fst q =? fst p) && (snd q <? snd p)))%Z then None else Some (p, q).

(** * The calls a parse makes *)
(** Steps of Parser_Model without an effect on positions. *)
Inductive silent : ps -> ps -> Prop :=
| q_pop t r s : modes s = t :: r -> opened t = [] -> silent s (set_modes r s)
| q_new m s : silent s (startNewMode m s)
| q_set m s s' : on_top (state_set m) s = Ret s' -> silent s s'
| q_clear m s s' : on_top (state_clear m) s = Ret s' -> silent s s'
| q_add e s s' : addElement e s = Ret s' -> silent s s'
| q_dup l s s' : dupMode l s = Ret s' -> silent s s'
| q_insert m n l s s' : insertModeAfter m n l s = Ret s' -> silent s s'
| q_dupdown m s s' : dupDownOverMode m s = Ret s' -> silent s s'
| q_pause x s : silent s (set_paused x s)
| q_nop s s' : nopStreamStart s = Ret s' -> silent s s'
| q_type n e s s' : setType n e s = Ret s' -> silent s s'
| q_take_out t r s : tb s = t :: r -> silent s (after_pop t r s).   (* nextToken's pop_front *)

Definition issues_empty (t : mstate) : bool := negb (N.eqb (N.land (flags t) MODE_ISSUE_EMPTY_AT_POP) 0).
Definition head_token s : option ltok := match input s with [] => None | t :: _ => Some t end.

Inductive emits (o : popts) : ps -> list acall -> ps -> Prop :=
| m_none s : emits o s [] s
| m_seq s1 l1 s2 l2 s3 : emits o s1 l1 s2 -> emits o s2 l2 s3 -> emits o s1 (l1 ++ l2) s3
| m_start e s s' : startElement e s = Ret s' -> emits o s [Cstart e true] s'
| m_start_ns e s s' : startNoSkipElement e s = Ret s' -> emits o s [Cstart e false] s'
| m_end t r n e k s : modes s = t :: r -> opened t = (n, e) :: k ->
    emits o s [if issues_empty t then Cissue e else Cend e] (endElement s)
| m_empty e s : emits o s [Cempty] (emptyElement e s)
| m_flush s : emits o s [Cflush] (flushSkip s)
| m_silent s s' : silent s s' -> emits o s [] s'
| m_take s : (at_white s = true -> 0 < guessing s) ->
    emits o s [Cconsume (head_token s) (at_skip s)] (take s)
| m_skip t r s s' : input s = t :: r -> is_skip_tok (inskip s) (l_type t) = true ->
    skip_one t s = Ret s' -> emits o s [Cskip t] s'
| m_complete s : emits o s (match comments s with [] => [] | _ => [Ccomplete (Ecomment Cblock)] end) (completeSkip s)
| m_guess l s s' : emits o (mark s) l s' -> emits o s [Cguess l] (rewind s s')
| m_region g l s s' : at_region o s = Some g -> emits o (enter s) l s' ->
    emits o s [Cregion l] (leave_region s s').
