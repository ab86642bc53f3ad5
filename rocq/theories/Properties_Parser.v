(** Properties C08, C09, C10 and C38: the parser's token stream, for every grammar program.
    A parse: [pull o rs cs (construct src) = (l, e, s)]: the parser over the lexer's tokens [src],
    driven by the programs in [cs], hands the tokens [l] to the output; [e] says how it ended, [s] is
    the parser afterwards.  Vocabulary: Parser_Spec.v. *)
From Verif Require Import Base Text_Model Parser_Model Parser_Spec Parser_Proofs Parser_Proofs2 Parser_Proofs3
  Parser_View Parser_View2 Parser_View3 Parser_View4 Parser_View5 Parser_View6 Parser_Modes Parser_Modes2 Parser_Guess.

(** * A parse used in the examples: "a b#d" EOL "//x" EOL ";", a statement with two names, a directive
    and a comment in it, looked ahead at first with an exception ending the look-ahead. *)
Definition o0 := POpts true false.
Definition word (n : nat) (c : N) := LTok (Lsrc n) [c].
Definition call0 p := Call1 p Bnil [] [].
Definition idle := call0 Pdone.
Definition src1 :=
  [word 1 97; LTok (Lws 0) [32%N]; word 2 98; LTok Lpreproc [35%N]; word 3 100; LTok Leol [10%N];
   LTok (Lopen Cline) [47%N; 47%N]; LTok (Lws 2) [120%N]; LTok (Lclose Cline) [10%N]; word 4 59].
Definition directive : prog :=
  Pact (AnewMode MODE_PREPROC) (Pact (Astart (Ename 9)) (Pconsume Bnil (Pconsume Bnil (Pact AendMode Pdone)))).
Definition decl : prog :=
  Pact (AnewMode MODE_STATEMENT) (Pact (Astart (Ename 1))
   (Pguess Call (Pconsume Bnil (Pconsume (Bcons directive Bnil) (Pthrow Recognition)))
   (Pscope Single (Pact (Astart (Ename 2)) (Pconsume Bnil Pdone))
   (Pscope Single (Pact (Astart (Ename 3)) (Pconsume (Bcons directive Bnil) Pdone))
   (Pconsume Bnil (Pact AendMode Pdone)))))).
Definition finish : prog := Pact AendAll (Pconsume Bnil Pdone).
Definition calls1 := [idle; call0 decl] ++ repeat idle 19 ++ [call0 finish; idle].
Definition seen (r : list otok * ending * ps) := match r with (l, e, s) => (outputs l, e, log s) end.
Lemma parse1 : seen (pull o0 true calls1 (construct src1)) =
  ([Open (Ename 1); Open (Ename 2); Txt [97%N]; Close; Txt [32%N]; Open (Ename 3); Txt [98%N]; Close;
    Open (Ename 9); Txt [35%N]; Txt [100%N]; Close; Txt [10%N]; Open (Ecomment Cline); Txt [47%N; 47%N];
    Txt [120%N]; Close; Txt [10%N]; Txt [59%N]; Close], AtEof, []).
Proof. vm_compute. reflexivity. Qed.

(** ** C08 *)
(** The text carried by the tokens delivered is a prefix of the source, and all of it when the end of
    file is reached: nothing is lost, repeated or moved, whatever the parser does. *)
Theorem C08_text : forall o rs src cs l e s, pull o rs cs (construct src) = (l, e, s) ->
  prefix_of (concat (map o_text l)) (source src) /\ (e = AtEof -> concat (map o_text l) = source src).
Proof. exact stream_text. Qed.
Print Assumptions C08_text.
(** The same for what is written to the XML document. *)
Theorem C08_written_partial : forall o rs src cs l e s,
  pull o rs cs (construct src) = (l, e, s) -> ~ In Fnop (log s) -> ~ In Fmacro (log s) ->
  prefix_of (recovered (outputs l)) (source src) /\ (e = AtEof -> recovered (outputs l) = source src).
Proof. exact stream_written. Qed.
Print Assumptions C08_written_partial.
Example C08_example : exists l s, pull o0 true calls1 (construct src1) = (l, AtEof, s) /\
  ~ In Fnop (log s) /\ ~ In Fmacro (log s) /\
  source src1 = [97; 32; 98; 35; 100; 10; 47; 47; 120; 10; 59]%N.
Proof. eexists. eexists. split; [vm_compute; reflexivity|]. split; [intros []|]. split; [intros []|reflexivity]. Qed.

(** Missing in the written document, (1): a statement cancelled against a control character, whose
    escaped form is then printed as text. *)
Definition src_control := [word 1 97; LTok Lcontrol [1%N]; word 2 98; LTok Lcontrol [2%N]].
Definition cancel := Pconsume Bnil (Pact AflushSkip (Pact Apause (Pconsume Bnil (Pact AflushSkip (Pact Anop finish))))).
Theorem C08_cancelled_refuted : exists l s,
  pull o0 true ([idle; call0 cancel] ++ repeat idle 5) (construct src_control) = (l, AtEof, s) /\
  recovered (outputs l) = txt "a0x01b0x02" /\ recovered (outputs l) <> source src_control.
Proof. eexists. eexists. split; [vm_compute; reflexivity|]. split; [vm_compute; reflexivity|]. intros F. vm_compute in F. discriminate F. Qed.
Print Assumptions C08_cancelled_refuted.
(** (2): an exception in a macro call met while looking ahead without a handler: the rest of the
    document is never delivered. *)
Definition src_macro := [word 1 97; LTok Lmacro [77%N]; word 2 98].
Definition calls_macro := [idle; call0 (Pguess Cnone (Pconsume (Bcons (Pthrow Recognition) Bnil) Pdone) Pdone); idle].
Theorem C08_macro_refuted :
  (exists l s, pull o0 true calls_macro (construct src_macro) = (l, Broke, s) /\ outputs l = []) /\
  (exists l s, pull o0 false calls_macro (construct src_macro) = (l, Threw, s) /\ outputs l = []).
Proof. split; eexists; eexists; (split; [vm_compute; reflexivity|reflexivity]). Qed.
Print Assumptions C08_macro_refuted.

(** ** C09 *)
(** Full statement: for every parse, the calls on the XML writer never close more elements than they
    open, close each one by the end, and each end tag is the innermost open element's.  The [log]
    records the runs on which the parser's own code does not ensure it (type [fault]). *)
Theorem C09_balance_partial : forall o rs src cs l e s,
  pull o rs cs (construct src) = (l, e, s) -> (forall f, In f (log s) -> f = Fcomment \/ f = Fouter) ->
  never_over_closed (outputs l) /\ (e = AtEof -> opens (outputs l) = closes (outputs l)).
Proof. exact stream_balance. Qed.
Print Assumptions C09_balance_partial.
Theorem C09_nested_partial : forall o rs src cs l e s,
  pull o rs cs (construct src) = (l, e, s) -> log s = [] ->
  (exists k, follow l [] = Some k) /\ (e = AtEof -> follow l [] = Some []).
Proof. exact stream_nested. Qed.
Print Assumptions C09_nested_partial.
Example C09_example : exists l s, pull o0 true calls1 (construct src1) = (l, AtEof, s) /\ log s = [] /\
  opens (outputs l) = 5.
Proof. eexists. eexists. split; [vm_compute; reflexivity|]. split; vm_compute; reflexivity. Qed.

(** Runs on which it fails: an element ended during a look-ahead is never closed; *)
Definition src_a := [word 1 97].
Definition statement k := Pact (AnewMode MODE_STATEMENT) k.
Theorem C09_ended_in_guess_refuted : seen (pull o0 true
  [idle; call0 (statement (Pact (Astart (Ename 1)) (Pguess Crecognition (Pact AendMode Pdone) (Pconsume Bnil finish)))); idle; idle; idle] (construct src_a))
  = ([Open (Ename 1); Txt [97%N]], AtEof, [Funclosed]).
Proof. vm_compute. reflexivity. Qed.
Print Assumptions C09_ended_in_guess_refuted.
(** an element added without a start tag is closed; *)
Theorem C09_added_refuted : seen (pull o0 true
  [idle; call0 (statement (Pact (Aadd (Ename 1)) (Pconsume Bnil finish))); idle; idle; idle; idle] (construct src_a))
  = ([Txt [97%N]; Close], AtEof, [Funopened]).
Proof. vm_compute. reflexivity. Qed.
Print Assumptions C09_added_refuted.
(** an element left open by preprocessor handling is closed before it is opened. *)
Definition src_hash := [word 1 97; LTok Lpreproc [35%N]; word 3 100].
Theorem C09_left_open_refuted : seen (pull o0 true
  ([idle; call0 (statement (Pconsume (Bcons (Pact (Astart (Ename 9)) (Pconsume Bnil Pdone)) Bnil) (Pact AendMode (Pconsume Bnil finish))))] ++ repeat idle 7) (construct src_hash))
  = ([Txt [97%N]; Close; Open (Ename 9); Txt [35%N]; Txt [100%N]], AtEof, [Fleft]).
Proof. vm_compute. reflexivity. Qed.
Print Assumptions C09_left_open_refuted.

(** ** C10 *)
(** At every point of every parse, also inside a rule or preprocessor handling, every mode recorded as
    transparently active is set in the state itself or one that encloses it. *)
Theorem C10_supported : forall o rs src cs l e s, pull o rs cs (construct src) = (l, e, s) ->
  supported (modes s) /\
  forall p s', at_skip s = false ->
    ends_in (run o p s) s' \/ (exists g, at_region o s = Some g /\ ends_in (run o p (enter s)) s') -> supported (modes s').
Proof. exact modes_supported. Qed.
Print Assumptions C10_supported.
(** A single mode reported transparently active is set in some state; there is a nearest one. *)
Theorem C10_transparent : forall b s, supported (modes s) -> inTransparentMode (2 ^ b) s = true ->
  exists a t r, modes s = a ++ t :: r /\ has_modes (2 ^ b) t /\ Forall (fun x => ~ has_modes (2 ^ b) x) a.
Proof. exact transparent_state. Qed.
Print Assumptions C10_transparent.
(** Unwinding to modes reported transparently active removes exactly the states above the nearest
    state that has them; nothing happens if they are not reported. *)
Theorem C10_unwind_to : forall m s a t r,
  modes s = a ++ t :: r -> inTransparentMode m s = true -> Forall (fun x => ~ has_modes m x) a -> has_modes m t ->
  modes (endDownToMode m s) = t :: r.
Proof. exact unwind_to. Qed.
Print Assumptions C10_unwind_to.
Theorem C10_unwind_not : forall m s, inTransparentMode m s = false -> endDownToMode m s = s /\ endDownOverMode m s = Ret s.
Proof. exact unwind_not. Qed.
Print Assumptions C10_unwind_not.
(** Unwinding over: the nearest such state goes as well, unless it is the last one (an exception). *)
Theorem C10_unwind_over : forall m s a t r,
  modes s = a ++ t :: r -> inTransparentMode m s = true -> Forall (fun x => ~ has_modes m x) a -> has_modes m t ->
  match endDownOverMode m s with
  | Ret s' => r <> [] /\ modes s' = r
  | Exn x s' => r = [] /\ x = Fault /\ modes s' = [t]
  | _ => False
  end.
Proof. exact unwind_over. Qed.
Print Assumptions C10_unwind_over.
(** Unwinding to the first state with some mode of a set; unwinding while a mode is set. *)
Theorem C10_unwind_set : forall m s, modes s <> [] ->
  exists a t r, removed a (modes s) (t :: r) /\ modes (endDownToModeSet m s) = t :: r /\
    Forall (fun x => N.land (flags x) m = 0%N) a /\ (N.land (flags t) m <> 0%N \/ r = []).
Proof. exact unwind_set. Qed.
Print Assumptions C10_unwind_set.
Theorem C10_unwind_while : forall m s, modes s <> [] ->
  exists a t r, removed a (modes s) (t :: r) /\ modes (endWhileMode m s) = t :: r /\
    Forall (has_modes m) a /\ (~ has_modes m t \/ r = []).
Proof. exact unwind_while. Qed.
Print Assumptions C10_unwind_while.
(** Every one of these ends, removes only inner states, and never the last one. *)
Theorem C10_bottom_kept : forall o act s, modes s <> [] ->
  (exists m, act = AendDownTo m \/ act = AendDownToSet m \/ act = AendDownOver m \/ act = AendWhile m) \/ act = AendMode ->
  exists s' a, ends_in (act_step o act s) s' /\ removed a (modes s) (modes s').
Proof. exact unwind_removed. Qed.
Print Assumptions C10_bottom_kept.
(** The end tags of the elements open in the states removed are issued, innermost first. *)
Theorem C10_unwind_tags : forall m s a t r,
  modes s = a ++ t :: r -> inTransparentMode m s = true -> Forall (fun x => ~ has_modes m x) a -> has_modes m t ->
  guessing s = 0 -> Forall (fun t => N.land (flags t) MODE_ISSUE_EMPTY_AT_POP = 0%N) a ->
  map (fun t => (o_type t, o_cat t)) (output (endDownToMode m s)) =
    map (fun t => (o_type t, o_cat t)) (output s) ++ map (fun e => (TE e, Kend)) (open_types a).
Proof. exact unwind_tags. Qed.
Print Assumptions C10_unwind_tags.

Definition three_modes := Pact (AnewMode MODE_LIST) (Pact (Astart (Ename 1)) (statement (Pact (Astart (Ename 2)) (Pact (Astart (Ename 3)) Pdone)))).
Example C10_example : exists s s' a t r, pull o0 true [idle] (construct src1) = ([OTok 1 (TE Eunit) Kempty [] None], Going, s) /\
  at_skip s = false /\ run o0 three_modes s = Ret s' /\
  modes s' = a ++ t :: r /\ inTransparentMode (2 ^ 1) s' = true /\ Forall (fun x => ~ has_modes (2 ^ 1) x) a /\ has_modes (2 ^ 1) t /\
  guessing s' = 0 /\ Forall (fun t => N.land (flags t) MODE_ISSUE_EMPTY_AT_POP = 0%N) a /\
  open_types a = [Ename 3; Ename 2].
Proof.
  eexists. eexists.
  exists [MState MODE_STATEMENT MODE_LIST (2 ^ 25 + 2 ^ 11 + 2 + 1) [(Some 4, Ename 3); (Some 3, Ename 2)]].
  eexists. eexists. split; [vm_compute; reflexivity|]. split; [reflexivity|].
  split; [vm_compute; reflexivity|]. split; [vm_compute; reflexivity|]. split; [reflexivity|].
  split; [constructor; [intros F; vm_compute in F; discriminate F|constructor]|]. split; [reflexivity|].
  split; [reflexivity|]. split; [constructor; [reflexivity|constructor]|reflexivity].
Qed.

(** For a set of modes the query is not what the unwinding needs: the modes may be spread over
    several states.  Unwinding then removes every state but the last, or throws. *)
Definition spread := Pact (AnewMode MODE_LIST) (Pact (AnewMode MODE_LOCAL) (statement Pdone)).
Theorem C10_spread_refuted : exists s s', 
  run o0 spread (construct src_a) = Ret s /\ inTransparentMode (N.lor MODE_LIST MODE_LOCAL) s = true /\
  Forall (fun t => ~ has_modes (N.lor MODE_LIST MODE_LOCAL) t) (modes s) /\
  length (modes s) = 4 /\ length (modes (endDownToMode (N.lor MODE_LIST MODE_LOCAL) s)) = 1 /\
  endDownOverMode (N.lor MODE_LIST MODE_LOCAL) s = Exn Fault s'.
Proof.
  eexists. eexists. split; [vm_compute; reflexivity|]. split; [reflexivity|]. split.
  { repeat (constructor; [intros F; vm_compute in F; discriminate F|]). constructor. }
  split; [reflexivity|]. split; vm_compute; reflexivity.
Qed.
Print Assumptions C10_spread_refuted.
(** The converse fails: clearing a mode also hides the same mode of the enclosing states, and
    unwinding to it then does nothing. *)
Definition hidden := Pact (AnewMode MODE_LIST) (statement (Pact (AclearMode MODE_LIST) Pdone)).
Theorem C10_hidden_refuted : exists s, run o0 hidden (construct src_a) = Ret s /\
  (exists t, In t (modes s) /\ has_modes MODE_LIST t) /\ inTransparentMode MODE_LIST s = false /\ endDownToMode MODE_LIST s = s.
Proof.
  eexists. split; [vm_compute; reflexivity|]. split; [|split; reflexivity].
  eexists. split; [right; left; reflexivity|reflexivity].
Qed.
Print Assumptions C10_hidden_refuted.

(** ** C38 *)
(** A token apart from its type. *)
Definition identity (t : otok) := (o_id t, o_cat t, o_text t, o_of t).
(** Anywhere in a parse, a look-ahead that is left normally puts the input back, delivers and
    numbers no token, and leaves all tokens as they were, types aside; it stops guessing unless an
    exception escaped a look-ahead inside it. *)
Theorem C38_lookahead_partial : forall o rs src cs l e s p s1 c b s2,
  pull o rs cs (construct src) = (l, e, s) -> at_skip s = false ->
  run o p s = Ret s1 -> run o (Pguess c b Pdone) s1 = Ret s2 ->
  input s2 = input s1 /\ serial s2 = serial s1 /\ map identity (everything s2) = map identity (everything s1) /\
  (In Fguess (log s2) \/ guessing s2 = guessing s1).
Proof. exact looking_ahead. Qed.
Print Assumptions C38_lookahead_partial.
Example C38_example : exists s s1 s2, pull o0 true [idle] (construct src1) = ([OTok 1 (TE Eunit) Kempty [] None], Going, s) /\
  at_skip s = false /\ run o0 (statement (Pact (Astart (Ename 1)) Pdone)) s = Ret s1 /\
  run o0 (Pguess Call (Pconsume Bnil (Pconsume (Bcons directive Bnil) (Pthrow Recognition))) Pdone) s1 = Ret s2 /\
  length (input s1) = 10 /\ modes s2 = modes s1.
Proof. eexists. eexists. eexists. split; [vm_compute; reflexivity|]. split; [reflexivity|]. split; [vm_compute; reflexivity|]. split; [vm_compute; reflexivity|]. split; reflexivity. Qed.
(** The mode stack is not put back: modes opened by preprocessor handling that ends with an
    exception stay. *)
Theorem C38_modes_refuted : exists s2,
  run o0 (Pguess Call (Pconsume (Bcons (Pact (AnewMode MODE_PREPROC) (Pact (AnewMode MODE_LIST) (Pconsume Bnil (Pthrow Recognition)))) Bnil) Pdone) Pdone)
    (construct src_hash) = Ret s2 /\ length (modes (construct src_hash)) = 1 /\ length (modes s2) = 3 /\ guessing s2 = 0.
Proof. eexists. split; [vm_compute; reflexivity|]. split; [reflexivity|]. split; reflexivity. Qed.
Print Assumptions C38_modes_refuted.
