(** Model of the srcML token stream parser: the mode stack, the element and text buffers and the
    pull interface, driven by an arbitrary grammar.

    The 9 700 lines of grammar rules (srcMLParser.g) are not modelled rule by rule.  A rule's
    behaviour on the token stream is a finite sequence of the operations below (element and mode
    operations, consume, syntactic predicates, preprocessor handling, exceptions, the three RAII
    helper classes); a [prog] is one such sequence, and everything is stated for every [prog].
    A rule that inspects the state and decides what to do is, on each run, one [prog].

    Not modelled: line/column numbers and the position attributes; parenthesis, curly brace and
    type counters of a mode (they only steer the grammar's own decisions); the ANTLR lexers. *)
From Verif Require Import Base Text_Model.

(** Kinds of comment, src/parser/StreamMLParser.hpp:359-486. *)
Inductive ckind := Cblock | Cline | Cjavadoc | Cdoxygen | Clinedoxygen.

(** Lexer token types, as far as StreamMLParser distinguishes them
    (src/parser/srcml_bitset_token_sets.hpp:152-168, StreamMLParser.hpp:151-169, 339-585).
    [Lws]: WS, EOL_BACKSLASH, COMMENT_TEXT.  [Lsrc]: every other lexer token. *)
Inductive lex :=
| Lws (n : nat) | Leol | Lcontrol | Lwhole
| Lopen (c : ckind) | Lclose (c : ckind)
| Lpreproc | Lmacro | Lasm
| Lsrc (n : nat).

(** A token produced by the lexer: type and source text. *)
Record ltok := LTok { l_type : lex; l_text : bytes }.

(** Element types (srcMLParser.g:395-690).  [Enop]: SNOP, and every type without a name in the
    output table (SONAME).  [Ename n]: a type with a named entry (srcMLOutputElements.hpp). *)
Inductive etype := Eunit | Enop | Ename (n : nat) | Ecomment (c : ckind) | Eerror.

(** Token types: lexer types, end of file (antlr::Token::EOF_TYPE), element types. *)
Inductive ttype := TL (l : lex) | TEof | TE (e : etype).

(** Token categories, src/parser/srcMLToken.hpp:33. -1, STARTTOKEN, ENDTOKEN, EMPTYTOKEN. *)
Inductive cat := Ktext | Kstart | Kend | Kempty.

(** Output token, src/parser/srcMLToken.hpp:39-165.  [o_id] is the token's identity (its address).
    [o_of] is ghost data: for an end tag, the start tag it was issued for.
    Simplification: a control character's escape token keeps the source character in [o_text];
    the code stores its "0x%02x" form (StreamMLParser.hpp:346-351, property C06), see [outputToken]. *)
Record otok := OTok
  { o_id : nat; o_type : ttype; o_cat : cat; o_text : bytes; o_of : option nat }.

(** src/parser/srcMLState.hpp:37-290.  [opened]: openelements, top first; with each element the
    start tag issued for it ([None]: none was issued; ghost data). *)
Record mstate := MState
  { flags : N; flags_prev : N; flags_all : N; opened : list (option nat * etype) }.

(** What the parser did to itself that its own code does not guard against (ghost log). *)
Inductive fault :=
| Fguess        (* an exception left a look-ahead without restoring the input *)
| Fmacro        (* an exception left the handling of a macro call *)
| Funopened     (* an end tag was issued for an element whose start tag never was *)
| Funclosed     (* an element was dropped, during a look-ahead or a re-issue, without its end tag *)
| Fleft         (* preprocessor (or macro, asm) handling ended with an element of its own open *)
| Fouter        (* preprocessor handling closed an element opened outside it, or ran inside a comment *)
| Fcomment      (* a tag was issued inside an open comment *)
| Fnop          (* a paused statement was cancelled against a token that does not end it *)
| Feof.         (* the end of file was consumed with elements or comments still open, or inside
                   preprocessor handling *)

(** Parser state, StreamMLParser.hpp:872-930, ModeStack.hpp:63.
    [inskip] stands for the member inskip and for the buffer pointers, which the code always
    switches together (StreamMLParser.hpp:510-515, 530-541).  [popped]: ghost, the tokens
    removed from the front of [tb], in order. *)
Record ps := PS
  { input : list ltok;
    guessing : nat;
    inskip : bool;
    tb : list otok; skiptb : list otok; pretb : list otok; skippretb : list otok;
    modes : list mstate;
    paused : option nat;
    comments : list (option nat);
    serial : nat;
    popped : list otok;
    log : list fault }.

(** Parser options used here: SRCML_OPTION_CPP (StreamMLParser.hpp:508), SRCML_OPTION_DEBUG
    (srcMLParser.g:345). *)
Record popts := POpts { o_cpp : bool; o_debug : bool }.

Definition is_nil {A} (l : list A) : bool := match l with [] => true | _ => false end.

(** * State updates *)
Definition set_input x s := PS x (guessing s) (inskip s) (tb s) (skiptb s) (pretb s) (skippretb s)
  (modes s) (paused s) (comments s) (serial s) (popped s) (log s).
Definition set_guessing x s := PS (input s) x (inskip s) (tb s) (skiptb s) (pretb s) (skippretb s)
  (modes s) (paused s) (comments s) (serial s) (popped s) (log s).
Definition set_bufs i a b c d s := PS (input s) (guessing s) i a b c d
  (modes s) (paused s) (comments s) (serial s) (popped s) (log s).
Definition set_modes x s := PS (input s) (guessing s) (inskip s) (tb s) (skiptb s) (pretb s)
  (skippretb s) x (paused s) (comments s) (serial s) (popped s) (log s).
Definition set_paused x s := PS (input s) (guessing s) (inskip s) (tb s) (skiptb s) (pretb s)
  (skippretb s) (modes s) x (comments s) (serial s) (popped s) (log s).
Definition set_comments x s := PS (input s) (guessing s) (inskip s) (tb s) (skiptb s) (pretb s)
  (skippretb s) (modes s) (paused s) x (serial s) (popped s) (log s).
Definition set_serial x s := PS (input s) (guessing s) (inskip s) (tb s) (skiptb s) (pretb s)
  (skippretb s) (modes s) (paused s) (comments s) x (popped s) (log s).
Definition set_popped x s := PS (input s) (guessing s) (inskip s) (tb s) (skiptb s) (pretb s)
  (skippretb s) (modes s) (paused s) (comments s) (serial s) x (log s).
Definition note (f : fault) s := PS (input s) (guessing s) (inskip s) (tb s) (skiptb s) (pretb s)
  (skippretb s) (modes s) (paused s) (comments s) (serial s) (popped s) (f :: log s).
Definition note_if (b : bool) f s := if b then note f s else s.

(** * Results *)
Inductive exn := Recognition | Fault.   (* antlr::RecognitionException; Segmentation_Fault *)
Inductive res :=
| Ret (s : ps)             (* returned *)
| Exn (x : exn) (s : ps)   (* threw *)
| Undef                    (* undefined behaviour, or std::terminate *)
| Stuck.                   (* the program given does not describe what happens next *)

Definition bind (r : res) (f : ps -> res) : res :=
  match r with Ret s => f s | _ => r end.

(** * Buffers *)
(** StreamMLParser.hpp:740-766 output(), skip(). *)
Definition output s := if inskip s then pretb s else tb s.
Definition skip s := if inskip s then skippretb s else skiptb s.
Definition set_output x s :=
  if inskip s then set_bufs true (tb s) (skiptb s) x (skippretb s) s
  else set_bufs false x (skiptb s) (pretb s) (skippretb s) s.
Definition set_skip x s :=
  if inskip s then set_bufs true (tb s) (skiptb s) (pretb s) x s
  else set_bufs false (tb s) x (pretb s) (skippretb s) s.

(** StreamMLParser.hpp:635-639 flushSkip: skipped tokens go behind the output. *)
Definition flushSkip s := set_skip [] (set_output (output s ++ skip s) s).

(** StreamMLParser.hpp:705-714 pushToken: nothing while guessing; [mk] builds the token. *)
Definition pushToken (ty : ttype) (k : cat) (x : bytes) (of : option nat) s :=
  if 0 <? guessing s then s
  else set_serial (S (serial s)) (set_output (output s ++ [OTok (serial s) ty k x of]) s).

(** StreamMLParser.hpp:722-733 pushTokenFlush. *)
Definition pushTokenFlush ty k x of s :=
  if 0 <? guessing s then s
  else pushToken ty k x of (flushSkip s).

(** StreamMLParser.hpp:774-782 pushSkipToken. *)
Definition pushSkipToken ty k x of s :=
  if 0 <? guessing s then s
  else set_serial (S (serial s)) (set_skip (skip s ++ [OTok (serial s) ty k x of]) s).

(** The start tag about to be issued: its identity, or none while guessing (ghost). *)
Definition issuing s : option nat := if 0 <? guessing s then None else Some (serial s).

(** * Mode stack *)
(** src/parser/Mode.cpp:26-64, bit positions. *)
Definition MODE_STATEMENT := (2 ^ 0)%N.
Definition MODE_LIST := (2 ^ 1)%N.
Definition MODE_TOP := (2 ^ 11)%N.
Definition MODE_PARSE_EOL := (2 ^ 15)%N.
Definition MODE_LOCAL := (2 ^ 16)%N.
Definition MODE_PREPROC := (2 ^ 24)%N.
Definition MODE_NEST := (2 ^ 25)%N.
Definition MODE_ISSUE_EMPTY_AT_POP := (2 ^ 35)%N.
Definition MODE_END_AT_ENDIF := (2 ^ 38)%N.

(** ModeStack.hpp:262-265 size. *)
Definition size s := length (modes s).

(** ModeStack.hpp:155-158, srcMLState.hpp:89-92 getMode; 0 if there is no state. *)
Definition getMode s := match modes s with [] => 0%N | m :: _ => flags m end.

(** ModeStack.hpp:287-290 inMode, 300-303 inPrevMode, 313-316 inTransparentMode. *)
Definition inMode m s := match modes s with [] => false | t :: _ => N.eqb (N.land (flags t) m) m end.
Definition inPrevMode m s :=
  match modes s with
  | [] => false | [_] => false
  | t :: _ => N.eqb (N.land (flags_prev t) m) m
  end.
Definition inTransparentMode m s :=
  match modes s with [] => false | t :: _ => N.eqb (N.land (flags_all t) m) m end.

(** ModeStack.hpp:192-202 getFirstMode: the flags of the first state, from the top, that shares a
    mode with [m]. *)
Fixpoint first_mode (l : list mstate) m : N :=
  match l with
  | [] => 0%N
  | t :: r => if N.eqb (N.land (flags t) m) 0 then first_mode r m else flags t
  end.
Definition getFirstMode m s := first_mode (modes s) m.

(** ModeStack.hpp:99-103 startNewMode, srcMLState.hpp:51-53. *)
Definition startNewMode m s :=
  let all := match modes s with [] => 0%N | t :: _ => flags_all t end in
  set_modes (MState m (getMode s) (N.lor all m) [] :: modes s) s.

(** srcMLState.hpp:158-162 setMode, 170-174 clearMode, on one state. *)
Definition state_set m t := MState (N.lor (flags t) m) (flags_prev t) (N.lor (flags_all t) m) (opened t).
Definition state_clear m t :=
  MState (N.ldiff (flags t) m) (flags_prev t) (N.ldiff (flags_all t) m) (opened t).
Definition with_opened o t := MState (flags t) (flags_prev t) (flags_all t) o.

(** ModeStack.hpp:210-215 setMode, 223-228 clearMode: throw if there is no state. *)
Definition on_top (f : mstate -> mstate) s : res :=
  match modes s with
  | [] => Exn Fault s
  | t :: r => Ret (set_modes (f t :: r) s)
  end.

(** * Elements *)
Definition issued (o : option nat) : bool := match o with None => false | Some _ => true end.
(** A tag pushed on the output now would land inside a comment (ghost): a comment is open, or the
    skipped tokens, which come after it, close a comment they do not open. *)
Definition stray (l : list otok) : bool :=
  existsb (fun u => match o_cat u, o_of u with
                    | Kend, Some n => negb (existsb (fun t => o_id t =? n) l)
                    | _, _ => false
                    end) l.
Definition in_comment s : bool :=
  (0 =? guessing s) && (existsb issued (comments s) || stray (skip s)).

(** StreamMLParser.hpp:82-86 startElement and 95-99 startNoSkipElement. *)
Definition startElement e s : res :=
  bind (on_top (fun t => with_opened ((issuing s, e) :: opened t) t) s)
    (fun s => Ret (note_if (in_comment (flushSkip s)) Fcomment (pushTokenFlush (TE e) Kstart [] None s))).
Definition startNoSkipElement e s : res :=
  bind (on_top (fun t => with_opened ((issuing s, e) :: opened t) t) s)
    (fun s => Ret (note_if (in_comment s) Fcomment (pushToken (TE e) Kstart [] None s))).

(** StreamMLParser.hpp:122-128 emptyElement; 136-139 addElement. *)
Definition emptyElement e s := pushTokenFlush (TE e) Kempty [] None s.
Definition addElement e s : res := on_top (fun t => with_opened ((None, e) :: opened t) t) s.

(** StreamMLParser.hpp:107-114 endElement, called with the top open element: with
    MODE_ISSUE_EMPTY_AT_POP a start tag is issued first; then the end tag; then the element is
    popped.  Identity if nothing is open (no caller does that). *)
Definition end_element s : ps :=
  match modes s with
  | [] => s
  | t :: r =>
      match opened t with
      | [] => s
      | (o, e) :: oo =>
          let drop s := set_modes (with_opened oo t :: r) s in
          if N.eqb (N.land (flags t) MODE_ISSUE_EMPTY_AT_POP) 0 then
            let s := note_if ((0 =? guessing s) && match o with None => true | Some _ => false end)
                       Funopened s in
            let s := note_if ((0 <? guessing s) && match o with None => false | Some _ => true end)
                       Funclosed s in
            drop (pushToken (TE e) Kend [] o s)
          else
            let s := note_if (match o with None => false | Some _ => true end) Funclosed s in
            let n := issuing s in
            drop (pushToken (TE e) Kend [] n (pushToken (TE e) Kstart [] None s))
      end
  end.

Definition endElement s : ps := note_if (in_comment s) Fcomment (end_element s).

Definition top_open s : nat := match modes s with [] => 0 | t :: _ => length (opened t) end.

(** ModeStack.hpp:454-475 popMode on a non-empty stack: ends the open elements, drops the state. *)
Definition popMode s : ps :=
  let s := Nat.iter (top_open s) endElement s in
  set_modes (tl (modes s)) s.

(** ModeStack.hpp:110-116 endMode(), 128-134 endMode(m). *)
Definition endMode s : res := if size s <=? 1 then Exn Fault s else Ret (popMode s).

(** The loops of endDownToMode, endDownToModeSet, endDownOverMode, endWhileMode
    (ModeStack.hpp:570-617): end modes while more than one state is left and the condition holds;
    [n] is the number of states. *)
Fixpoint end_while (n : nat) (cond : ps -> bool) s : ps :=
  match n with
  | O => s
  | S n => if (1 <? size s) && cond s then end_while n cond (popMode s) else s
  end.

(** ModeStack.hpp:570-577. *)
Definition endDownToMode m s :=
  if inTransparentMode m s then end_while (size s) (fun s => negb (inMode m s)) s else s.
(** ModeStack.hpp:585-589. *)
Definition endDownToModeSet m s :=
  end_while (size s) (fun s => N.eqb (N.land (getMode s) m) 0) s.
(** ModeStack.hpp:597-605. *)
Definition endDownOverMode m s : res :=
  if inTransparentMode m s then endMode (end_while (size s) (fun s => negb (inMode m s)) s) else Ret s.
(** ModeStack.hpp:613-617. *)
Definition endWhileMode m s := end_while (size s) (inMode m) s.

(** Elements given by type only, without a start tag (ModeStack.hpp:495-530). *)
Definition unissued (l : list etype) : list (option nat * etype) := map (fun e => (None, e)) l.

(** ModeStack.hpp:495-504 dupMode. *)
Definition dupMode (l : list etype) s : res :=
  match modes s with
  | [] => Undef
  | t :: r =>
      Ret (set_modes (state_set MODE_ISSUE_EMPTY_AT_POP (with_opened (unissued l) t)
                      :: state_set (N.lor MODE_TOP MODE_END_AT_ENDIF) t :: r) s)
  end.

(** Splits the stack at the first state, from the top, that satisfies [f]. *)
Fixpoint cut (f : mstate -> bool) (l : list mstate) : option (list mstate * list mstate) :=
  match l with
  | [] => None
  | t :: r => if f t then Some ([], l)
              else match cut f r with Some (a, b) => Some (t :: a, b) | None => None end
  end.

(** ModeStack.hpp:513-530 insertModeAfter: undefined if no state has the mode. *)
Definition insertModeAfter m newm (l : list etype) s : res :=
  match cut (fun t => N.eqb (N.land (flags t) m) m) (modes s) with
  | None => Undef
  | Some (a, b) => Ret (set_modes (a ++ MState newm 0 newm (unissued l) :: b) s)
  end.

(** ModeStack.hpp:537-562 dupDownOverMode.  [a] are the states above the match [t]; in the second
    copy the elements carry no start tags of their own. *)
Definition dupDownOverMode m s : res :=
  match cut (fun t => negb (N.eqb (N.land (flags t) m) 0)) (modes s) with
  | None => Undef
  | Some (a, []) => Undef
  | Some (a, t :: r) =>
      let mark x := state_set MODE_END_AT_ENDIF x in
      let t1 := mark (state_set (N.lor MODE_TOP MODE_END_AT_ENDIF) t) in
      let ghostly x := with_opened (unissued (map snd (opened x))) x in
      let again x := state_set MODE_ISSUE_EMPTY_AT_POP (ghostly x) in
      Ret (set_modes (map again (map mark a) ++ again (with_opened [] t1)
                      :: map mark a ++ t1 :: r) s)
  end.

(** * Pausing, retyping *)
Definition tid (t : otok) := o_id t.
Definition retyped ty t := OTok (o_id t) ty (o_cat t) (o_text t) (o_of t).

(** antlr::Token::setType on the token with identity [n] in the buffers. *)
Definition retype1 n ty (l : list otok) : list otok :=
  map (fun t => if o_id t =? n then retyped ty t else t) l.
Definition retype_bufs n ty s :=
  set_bufs (inskip s) (retype1 n ty (tb s)) (retype1 n ty (skiptb s))
    (retype1 n ty (pretb s)) (retype1 n ty (skippretb s)) s.

Definition buffered s := tb s ++ skiptb s ++ pretb s ++ skippretb s.
(** Every token ever pushed, in stream order. *)
Definition everything s := popped s ++ buffered s.

Definition find_tok n (l : list otok) : option otok := find (fun t => o_id t =? n) l.

Definition entry_is n (x : option nat * etype) : bool :=
  match fst x with Some k => k =? n | None => false end.
Definition has_entry n s := existsb (fun t => existsb (entry_is n) (opened t)) (modes s).
Definition retype_entry n e (x : option nat * etype) := if entry_is n x then (fst x, e) else x.

(** srcMLParser.g:194-202 TokenPosition::setType, through a position taken (srcMLParser.g:772-775)
    right after startElement, as all eight uses do: the token and the open element change type.
    Writing through it once the element has been ended, or the tag has left the buffers, is
    undefined. *)
Definition setType n e s : res :=
  match find_tok n (buffered s) with
  | None => Undef
  | Some t =>
      if has_entry n s then
        Ret (set_modes (map (fun t => with_opened (map (retype_entry n e) (opened t)) t) (modes s))
              (retype_bufs n (TE e) s))
      else Undef
  end.

(** StreamMLParser.hpp:836-840 pauseStream, 843-846 resumeStream. *)
Definition pauseStream s : res :=
  match rev (output s) with
  | [] => Undef
  | t :: _ => Ret (set_paused (Some (o_id t)) s)
  end.
Definition resumeStream s := set_paused None s.

Definition lex_eq_dec (a b : lex) : {a = b} + {a <> b}.
Proof. repeat decide equality. Defined.
Definition ttype_eq_dec (a b : ttype) : {a = b} + {a <> b}.
Proof. repeat decide equality. Defined.

(** StreamMLParser.hpp:854-867 nopStreamStart: only the types are compared. *)
Definition nopStreamStart s : res :=
  match paused s with
  | None => Ret s
  | Some n =>
      match find_tok n (everything s), rev (output s) with
      | Some p, b :: _ =>
          if ttype_eq_dec (o_type p) (o_type b) then
            let pair := match o_cat p, o_cat b, o_of b, find_tok n (buffered s) with
                        | Kstart, Kend, Some k, Some _ => k =? n
                        | _, _, _, _ => false
                        end in
            Ret (resumeStream (note_if (negb pair) Fnop
                  (retype_bufs (o_id b) (TE Enop) (retype_bufs n (TE Enop) s))))
          else Ret s
      | _, _ => Undef
      end
  end.

(** * Skipped tokens *)
(** StreamMLParser.hpp:151-169 isSkipToken; srcml_bitset_token_sets.hpp:152-168. *)
Definition is_white (l : lex) : bool :=
  match l with
  | Lws _ | Lcontrol | Lwhole | Lopen _ | Lclose _ => true
  | Leol | Lpreproc | Lmacro | Lasm | Lsrc _ => false
  end.
Definition is_skip_tok (ins : bool) (l : lex) : bool :=
  is_white l || match l with Leol => negb ins | _ => false end.
Definition at_skip s := match input s with [] => false | t :: _ => is_skip_tok (inskip s) (l_type t) end.

(** The element a closing comment token ends, StreamMLParser.hpp:378-486. *)
Definition drop1 s := set_input (tl (input s)) s.

(** open_comments.pop() (StreamMLParser.hpp:380, 421, ...): undefined on an empty stack.  Ghost:
    popping, outside a guess, a comment opened in a guess; or the converse. *)
Definition pop_comment s : option (option nat * ps) :=
  match comments s with
  | [] => None
  | o :: r =>
      let s := note_if ((0 =? guessing s) && match o with None => true | Some _ => false end)
                 Funopened s in
      let s := note_if ((0 <? guessing s) && match o with None => false | Some _ => true end)
                 Funclosed s in
      Some (o, set_comments r s)
  end.

Definition ends_line (x : bytes) : bool := N.eqb (last x 0%N) 10.

(** StreamMLParser.hpp:339-500, the branch for a skip token [t] (already known to be one). *)
Definition skip_one (t : ltok) s : res :=
  let text := pushSkipToken (TL (l_type t)) Ktext (l_text t) None in
  match l_type t with
  | Lcontrol => Ret (drop1 (pushSkipToken (TL Lcontrol) Kempty (l_text t) None s))
  | Lopen c =>
      let n := issuing s in
      let s := drop1 (text (pushSkipToken (TE (Ecomment c)) Kstart [] None s)) in
      Ret (set_comments (n :: comments s) s)
  | Lwhole =>
      let n := issuing s in
      Ret (pushSkipToken (TE (Ecomment Cblock)) Kend [] n
             (drop1 (text (pushSkipToken (TE (Ecomment Cblock)) Kstart [] None s))))
  | Lclose c =>
      match pop_comment s with
      | None => Undef
      | Some (n, s) =>
          let fin := pushSkipToken (TE (Ecomment c)) Kend [] n in
          match c with
          | Cline | Clinedoxygen =>
              if ends_line (l_text t) then Ret (drop1 (text (fin s)))
              else Ret (fin (drop1 (text s)))
          | _ => Ret (fin (drop1 (text s)))
          end
      end
  | _ => Ret (drop1 (text s))
  end.

(** The repeated skip-token branch of while (consumeSkippedToken()), StreamMLParser.hpp:328-329. *)
Fixpoint skip_all (l : list ltok) s : res :=
  match l with
  | [] => Ret s
  | t :: r => if is_skip_tok (inskip s) (l_type t) then bind (skip_one t s) (skip_all r) else Ret s
  end.

(** The non-skip branches of consumeSkippedToken, StreamMLParser.hpp:504-607. *)
Inductive region := Rpreproc | Rmacro | Rasm.
Definition at_region (o : popts) s : option region :=
  if inskip s then None else
  match input s with
  | [] => None
  | t :: _ => match l_type t with
              | Lpreproc => if o_cpp o then Some Rpreproc else None
              | Lmacro => Some Rmacro
              | Lasm => Some Rasm
              | _ => None
              end
  end.
(** StreamMLParser.hpp:510-515. *)
Definition enter s := set_bufs true (tb s) (skiptb s) (pretb s) (skippretb s) s.
(** Start tags issued for the elements open now, innermost first; comments (ghost). *)
Definition somes {A} (l : list (option A)) : list A :=
  concat (map (fun o => match o with None => [] | Some n => [n] end) l).
Definition open_ids s : list nat := somes (map fst (concat (map opened (modes s)))).
Definition comment_ids s : list nat := somes (comments s).

(** StreamMLParser.hpp:525-541.  [s0]: the state before (ghost: only used for the log). *)
Definition leave_region (s0 s : ps) :=
  let own n := serial s0 <=? n in
  let left := existsb own (open_ids s ++ comment_ids s) in
  let gone n := negb (existsb (Nat.eqb n) (open_ids s)) in
  let lost := existsb gone (open_ids s0) || negb (is_nil (comment_ids s0)) in
  note_if left Fleft (note_if lost Fouter
    (set_bufs false (tb s) (skiptb s ++ (pretb s ++ skippretb s)) [] [] s)).
(** StreamMLParser.hpp:518-522 (try), 553-573 (no try), 584-588 (try). *)
Definition run_region (g : region) (s0 : ps) (r : res) : res :=
  match r, g with
  | Ret s, _ => Ret (leave_region s0 s)
  | Exn _ s, Rpreproc => Ret (leave_region s0 s)
  | Exn _ s, Rasm => Ret (leave_region s0 s)
  | Exn x s, Rmacro => Exn x (note Fmacro s)
  | r, _ => r
  end.

(** * consume *)
(** StreamMLParser.hpp:315-324: pushCorrectToken, then srcMLParser::consume.  At the end of the
    input the token is the end-of-file token. *)
Definition take s :=
  match input s with
  | [] =>
      let open := existsb (fun t => match opened t with [] => false | _ => true end) (modes s)
                  || existsb (fun o => match o with None => false | Some _ => true end) (comments s) in
      let s := note_if ((0 =? guessing s) && (open || inskip s)) Feof s in
      pushTokenFlush TEof Ktext [] None s
  | t :: _ =>
      if is_skip_tok (inskip s) (l_type t)
      then drop1 (pushSkipToken (TL (l_type t)) Ktext (l_text t) None s)
      else drop1 (pushTokenFlush (TL (l_type t)) Ktext (l_text t) None s)
  end.

(** StreamMLParser.hpp:641-648 completeSkip.  Simplification: the tag is always a block comment's,
    the code takes the type from the stack; both are named. *)
Definition completeSkip s : ps :=
  match pop_comment s with
  | None => s
  | Some (n, s) => pushSkipToken (TE (Ecomment Cblock)) Kend [] n s
  end.

(** srcMLParser.g:341-369 endAllModes (overrides ModeStack::endAllModes). *)
Definition end_to_one s := end_while (size s) (fun _ => true) s.
Definition endAllModes (o : popts) s : res :=
  let s := if (1 <? size s) && o_debug o then emptyElement Eerror s else s in
  bind (match paused s with None => Ret s | Some _ => nopStreamStart (end_to_one s) end)
    (fun s =>
      let s := end_to_one (resumeStream s) in
      let s := flushSkip (completeSkip s) in
      Ret (if size s =? 1 then popMode s else s)).

(** * Grammar actions *)
Inductive act :=
| Astart (e : etype) | AstartNoSkip (e : etype) | Aempty (e : etype) | Aadd (e : etype)
| AflushSkip
| AnewMode (m : N) | AsetMode (m : N) | AclearMode (m : N)
| AendMode | AendDownTo (m : N) | AendDownToSet (m : N) | AendDownOver (m : N) | AendWhile (m : N)
| Adup (l : list etype) | Ainsert (m n : N) (l : list etype) | AdupDown (m : N)
| AendAll
| Apause | Aresume | Anop | AsetType (n : nat) (e : etype).

Definition act_step (o : popts) (a : act) (s : ps) : res :=
  match a with
  | Astart e => startElement e s
  | AstartNoSkip e => startNoSkipElement e s
  | Aempty e => Ret (emptyElement e s)
  | Aadd e => addElement e s
  | AflushSkip => Ret (flushSkip s)
  | AnewMode m => Ret (startNewMode m s)
  | AsetMode m => on_top (state_set m) s
  | AclearMode m => on_top (state_clear m) s
  | AendMode => endMode s
  | AendDownTo m => Ret (endDownToMode m s)
  | AendDownToSet m => Ret (endDownToModeSet m s)
  | AendDownOver m => endDownOverMode m s
  | AendWhile m => Ret (endWhileMode m s)
  | Adup l => dupMode l s
  | Ainsert m n l => insertModeAfter m n l s
  | AdupDown m => dupDownOverMode m s
  | AendAll => endAllModes o s
  | Apause => pauseStream s
  | Aresume => Ret (resumeStream s)
  | Anop => nopStreamStart s
  | AsetType n e => setType n e s
  end.

(** Which exceptions a handler stops: none (next_token, look_past, is_control_terminate ...:
    srcMLParser.g:1090-1164, 2196-2232, no try), antlr::RecognitionException (syntactic predicates
    generated by ANTLR, srcMLParser.g:5232-5249), everything (look_past_rule, perform_call_check,
    pattern_check ...: srcMLParser.g:1166-1184, 1915-1968, 4099-4117). *)
Inductive catches := Cnone | Crecognition | Call.
Definition stops (c : catches) (x : exn) : bool :=
  match c, x with Cnone, _ => false | Crecognition, Fault => false | _, _ => true end.

(** srcMLParser.g:215-316: CompleteElement, LightweightElement, SingleElement. *)
Inductive scope := Complete | Lightweight | Single.

Inductive prog :=
| Pdone
| Pthrow (x : exn)
| Pact (a : act) (k : prog)
| Pconsume (bs : progs) (k : prog)
    (* consume(); [bs]: what preprocessor(), macro_pattern_call(), visual_cxx_asm_declaration() do
       for the preprocessor lines, macro calls and asm statements met on the way *)
| Pguess (c : catches) (b k : prog)   (* mark, guessing++, b, guessing--, rewind *)
| Pscope (c : scope) (b k : prog)     (* a rule body under one of the RAII helpers *)
| Ptry (c : catches) (b h k : prog)   (* a rule with an exception section *)
with progs :=
| Bnil
| Bcons (p : prog) (bs : progs).

(** Number of endMode calls by ~CompleteElement, srcMLParser.g:231-235. *)
Fixpoint end_modes (n : nat) s : res :=
  match n with O => Ret s | S n => bind (endMode s) (end_modes n) end.

(** Entering and leaving a scope.  [s0] is the state in which the helper was constructed.  A throw
    in a destructor terminates the process; a helper constructed while guessing and destroyed
    while not has read no size (srcMLParser.g:219-231).  Not modelled: finish_elements_add, which
    is only ever filled under if (false && ...) (srcMLParser.g:9432-9452). *)
Definition enter_scope (c : scope) s : res :=
  match c, guessing s, modes s with
  | Lightweight, O, [] => Exn Fault s
  | _, _, _ => Ret s
  end.
Definition leave_scope (c : scope) (s0 s : ps) : res :=
  if 0 <? guessing s then Ret s else
  match c with
  | Complete =>
      if 0 <? guessing s0 then Undef else
      match end_modes (size s - size s0) s with Ret s => Ret s | _ => Undef end
  | Lightweight =>
      if 0 <? guessing s0 then Undef else
      match modes s with [] => Undef | _ => Ret (Nat.iter (top_open s - top_open s0) endElement s) end
  | Single =>
      match modes s with [] => Undef | _ => Ret (Nat.iter (Nat.min 1 (top_open s)) endElement s) end
  end.

(** mark() and guessing++; guessing-- and rewind(). *)
Definition mark s := set_guessing (S (guessing s)) s.
Definition rewind (s0 s : ps) := set_input (input s0) (set_guessing (pred (guessing s)) s).

(** Running a program.  A handler in a rule's exception section is skipped, and the exception
    rethrown, while guessing (code generated by ANTLR 2.7.7 for a grammar with syntactic
    predicates). *)
Fixpoint run (o : popts) (p : prog) (s : ps) {struct p} : res :=
  match p with
  | Pdone => Ret s
  | Pthrow x => Exn x s
  | Pact a k => bind (act_step o a s) (run o k)
  | Pconsume bs k => bind (loop o bs (take s)) (run o k)
  | Pguess c b k =>
      match run o b (mark s) with
      | Ret s' => run o k (rewind s s')
      | Exn x s' => if stops c x then run o k (rewind s s') else Exn x (note Fguess s')
      | r => r
      end
  | Pscope c b k =>
      bind (enter_scope c s) (fun s =>
        match run o b s with
        | Ret s' => bind (leave_scope c s s') (run o k)
        | Exn x s' => match leave_scope c s s' with Ret s'' => Exn x s'' | r => r end
        | r => r
        end)
  | Ptry c b h k =>
      match run o b s with
      | Ret s' => run o k s'
      | Exn x s' =>
          if stops c x && (0 =? guessing s') then bind (run o h s') (run o k) else Exn x s'
      | r => r
      end
  end
(** while (consumeSkippedToken()), StreamMLParser.hpp:328-329. *)
with loop (o : popts) (bs : progs) (s : ps) {struct bs} : res :=
  bind (skip_all (input s) s) (fun s1 =>
    match at_region o s1 with
    | None => Ret s1
    | Some g =>
        match bs with
        | Bnil => Stuck
        | Bcons b bs' => bind (run_region g s1 (run o b (enter s1))) (loop o bs')
        end
    end).

(** * The pull interface *)
(** StreamMLParser.hpp:176-193 fillTokenBuffer.  [rs]: whether antlr::RecognitionException is a
    std::exception (a matter of the ANTLR version, not of this code).  [p] is what the preprocessor
    (or macro, asm) rule does if the next token starts one, and what start() does otherwise. *)
Definition fillTokenBuffer (o : popts) (rs : bool) (p : prog) s : res :=
  let r :=
    if at_skip s then
      match input s with
      | [] => Ret s
      | t :: _ => bind (skip_one t s) (fun s => Ret (flushSkip s))
      end
    else match at_region o s with
         | Some g => bind (run_region g s (run o p (enter s))) (fun s => Ret (flushSkip s))
         | None => run o p s
         end in
  match r with
  | Exn Fault s => Ret (emptyElement Eerror s)
  | Exn Recognition s => if rs then Ret (emptyElement Eerror s) else Exn Recognition s
  | r => r
  end.

(** What happens inside one call of nextToken: the parsing done by each fillTokenBuffer.  [c_extra]
    is the loop for SRCML_OPTION_POSITION (StreamMLParser.hpp:680-690): any number of further
    fills, each perhaps followed by a consume; simplification: that consume is only taken when the
    next token is not a skip token (it follows a fill that did not move the input). *)
Record call := Call1
  { c_fill : prog; c_consume : progs; c_paused : list prog; c_extra : list (prog * option progs) }.

(** while (paused) fillTokenBuffer(), StreamMLParser.hpp:674-675. *)
Fixpoint while_paused o rs (l : list prog) s : res :=
  match paused s with
  | None => Ret s
  | Some _ => match l with
              | [] => Stuck
              | p :: l => bind (fillTokenBuffer o rs p s) (while_paused o rs l)
              end
  end.
Fixpoint extra o rs (l : list (prog * option progs)) s : res :=
  match l with
  | [] => Ret s
  | (p, c) :: l =>
      bind (fillTokenBuffer o rs p s) (fun s =>
        bind (match c with
              | Some bs => if at_skip s then Ret s else loop o bs (take s)
              | None => Ret s
              end) (extra o rs l))
  end.

(** StreamMLParser.hpp:662-696 nextToken: the token returned stays at the front of [tb]. *)
Definition nextToken (o : popts) (rs : bool) (c : call) s : res :=
  match tb s with
  | [] => Undef
  | t :: r =>
      let s := set_popped (popped s ++ [t])
                 (set_bufs (inskip s) r (skiptb s) (pretb s) (skippretb s) s) in
      bind (if is_nil (tb s) then fillTokenBuffer o rs (c_fill c) s else Ret s) (fun s =>
      bind (if is_nil (tb s) then loop o (c_consume c) (take s) else Ret s) (fun s =>
      bind (while_paused o rs (c_paused c) s) (fun s =>
      bind (extra o rs (c_extra c) s) (fun s =>
        match tb s with [] => Undef | _ => Ret s end))))
  end.

(** StreamMLParser.hpp:58-65 and srcMLParser.g:333-338, 766-769: the state after construction. *)
Definition construct (src : list ltok) : ps :=
  let s := PS src 0 false [] [] [] [] [] None [] 0 [] [] in
  let s := startNewMode (N.lor MODE_TOP (N.lor MODE_STATEMENT MODE_NEST)) s in
  match startElement Eunit s with Ret s => emptyElement Eunit s | _ => s end.

(** srcMLOutput::consume, src/parser/srcMLOutput.cpp:181-188: tokens handed to outputToken, and how
    the loop ends: the end-of-file token, an exception (srcml_translator.cpp:151-159 swallows it),
    undefined behaviour, or the calls given are used up (the parse is still going on). *)
Inductive ending := AtEof | Threw | Broke | Going.
Fixpoint pull (o : popts) (rs : bool) (cs : list call) (s : ps) : list otok * ending * ps :=
  match cs with
  | [] => ([], Going, s)
  | c :: cs =>
      match nextToken o rs c s with
      | Ret s' =>
          match tb s' with
          | [] => ([], Broke, s')
          | t :: _ =>
              if ttype_eq_dec (o_type t) TEof then ([], AtEof, s')
              else match pull o rs cs s' with (l, e, s'') => (t :: l, e, s'') end
          end
      | Exn _ s' => ([], Threw, s')
      | Undef => ([], Broke, s)
      | Stuck => ([], Going, s)
      end
  end.

(** * Output of a token *)
(** Calls on the XML writer.  [Esc c]: a complete escape element for the control character [c]. *)
Inductive ev := Open (e : etype) | Close | Txt (x : bytes) | Esc (x : bytes).

(** src/parser/srcMLOutput.cpp:573-599 outputToken and 535-566 processToken: a start or empty
    category opens, every other category closes. *)
Definition outputToken (t : otok) : list ev :=
  match o_type t with
  | TE Eunit => []
  | TE Enop =>
      match o_cat t with
      | Kempty => [Txt (match o_text t with [] => [] | c :: _ => escape_attr (char_to_int true c) end)]
      | _ => [Txt (o_text t)]
      end
  | TE e =>
      match o_cat t with
      | Kstart => [Open e]
      | Kempty => [Open e; Close]
      | Kend | Ktext => [Close]
      end
  | TL Lcontrol =>
      match o_cat t with
      | Kempty => [Esc (o_text t)]
      | Kstart => [Open Enop]
      | Kend | Ktext => [Close]
      end
  | TL _ | TEof => [Txt (o_text t)]
  end.
Definition outputs (l : list otok) : list ev := concat (map outputToken l).
