(** Properties C46-C49: the lexers. [tokens w s] (Lexer_Model.v): the tokens of the source [s] and how the scan ends.
    Specification: Lexer_Spec.v. *)
From Verif Require Import Base Text_Model Text_Spec Api_Model Api_Spec Writer_Model Writer_Spec Writer_Proofs10 Parser_Model Parser_Spec
  Source_Model Source_Spec Source_Elements Source_Whole Lexer_Model Lexer_Spec Lexer_Proofs5 Lexer_Comments Lexer_Raw Lexer_Raw2 Lexer_Words Lexer_Examples.
Local Open Scope N_scope.

(** ** C46: every character of the source is in exactly one token, in order *)
(** for every language, set of macros, tab stop and source *)
Theorem C46_covered : forall w s l e, tokens w s = (l, e) -> exists rest, s = text_of l ++ rest /\ Forall (fun t => k_text t <> []) l /\
    match e with
    | AtEnd => rest = []
    | NoRule u => u = rest /\ exists c r, rest = c :: r /\ (c < 256 -> c = 127 \/ c = 13)
    | DivisionByZero => s_tabsize w = 0 /\ In 9 rest
    | NoFuel => False
    end.
Proof. exact tokens_cover. Qed.
Print Assumptions C46_covered.
(** to the end, if no character is DEL (or a carriage return, which the input has turned into a newline, C01) *)
Theorem C46_complete : forall w s, s_tabsize w <> 0 -> Forall (fun c => c < 256 /\ c <> 127 /\ c <> 13) s ->
  exists l, tokens w s = (l, AtEnd) /\ text_of l = s /\ Forall (fun t => k_text t <> []) l.
Proof. exact tokens_end. Qed.
Print Assumptions C46_complete.
(** control characters, that XML cannot carry, are alone in tokens of their own type *)
Theorem C46_controls : forall w s l e, tokens w s = (l, e) ->
  inLanguage (s_lang w) CXX = false \/ ~ occurs [82; 34] s \/ Forall (fun c => ~ control c) s ->
  Forall (fun t => (exists c, k_type t = CONTROL_CHAR /\ k_text t = [c] /\ control c) \/ k_type t <> CONTROL_CHAR /\ Forall (fun c => ~ control c) (k_text t)) l.
Proof. exact tokens_controls. Qed.
Print Assumptions C46_controls.
(** DEL outside of comments and literals: no rule, the exception ends the parse, and what follows is lost *)
Theorem C46_del_refuted : exists l rest, tokens cxx (txt "a" ++ [127] ++ txt "b;") = (l, NoRule rest) /\ text_of l = txt "a" /\ rest = [127] ++ txt "b;".
Proof. exact deleted. Qed.
Print Assumptions C46_del_refuted.
(** a tab stop of 0, that srcml_archive_set_tabstop takes, and a tab *)
Theorem C46_tabstop_refuted : snd (tokens (Setting 2 [] 0) (txt "a" ++ [9] ++ txt "b;")) = DivisionByZero.
Proof. exact by_zero. Qed.
Print Assumptions C46_tabstop_refuted.
(** a control character in the delimiter of a raw string *)
Theorem C46_delimiter_refuted : exists l t, tokens cxx (txt "R""" ++ [7] ++ txt "(a)" ++ [7] ++ txt """;") = (l, AtEnd) /\ In t l /\ k_type t <> CONTROL_CHAR /\ In 7 (k_text t) /\ control 7.
Proof. exact delimiter. Qed.
Print Assumptions C46_delimiter_refuted.
Example C46_example : exists l, tokens cxx (txt "int x;" ++ [10; 7] ++ txt "//c") = (l, AtEnd) /\ length l = 8%nat /\
  In (Tok CONTROL_CHAR [7] 2 1) l /\ ~ occurs [82; 34] (txt "int x;" ++ [10; 7] ++ txt "//c").
Proof.
  eexists. split; [vm_compute; reflexivity|]. split; [reflexivity|]. split; [cbn; tauto|]. intros (a & b & E).
  assert (I : In 34 (txt "int x;" ++ [10; 7] ++ txt "//c")) by (rewrite E; apply in_or_app; right; right; left; reflexivity). vm_compute in I. repeat (destruct I as [I|I]; [discriminate I|]). destruct I.
Qed.

(** ** C45, from the source characters *)
(** The source of a unit, through the lexers, the parser with any grammar, the printed elements and the srcML, is what comes back.
    Missing: parses that log other faults (C08, C09). *)
Theorem C45_source_partial : forall extract a u lang encoding hash o rs w text tl cs l s tks,
  usable a (parse_start a (wu u) lang encoding) -> clean_opt hash -> fine_unit a (parse_end a (wu u) lang encoding hash) ->
  tokens w text = (tl, AtEnd) -> inLanguage (s_lang w) CXX = false \/ ~ occurs [82; 34] text \/ Forall (fun c => ~ control c) text ->
  pull o rs cs (construct (parser_tokens tl)) = (l, AtEof, s) -> (forall f, In f (log s) -> f = Fcomment \/ f = Fouter) ->
  printed (Writer_Spec.prefix_of a (parse_start a (wu u) lang encoding) POS) (outputs l) tks ->
  exists v, parse_unit extract a u lang encoding hash tks = Ok (ST_OK, v) /\
    (exists ev, xml_document (uo_srcml (wu v)) ev /\ extract_src ev = Ok text) /\
    (uo_src (wu u) = None -> (forall ev, xml_document (uo_srcml (wu v)) ev -> extract_src ev = Ok (extract (uo_srcml (wu v)))) ->
     uo_src (wu v) = Some text /\ uo_loc (wu v) = Z.of_nat (loc_written text)).
Proof. exact source_round_trip. Qed.
Print Assumptions C45_source_partial.

(** ** C47: comments and literals have their extent *)
(** Character by character. Missing: raw strings (below) and verbatim strings, and the texts of the refutations below. *)
Theorem C47_extents_partial : forall w s l, In (s_lang w) languages -> simple_macros (s_macros w) -> ~ unusual s -> ~ doubled s (regions Code s) ->
  ~ broken s (regions Code s) \/ Forall (fun t => k_type t <> PREPROC) l ->
  tokens w s = (l, AtEnd) -> marked Code l = map plain (regions Code s).
Proof. exact extents. Qed.
Print Assumptions C47_extents_partial.
(** A block comment, in any source: to the first star and slash after its start, or to the end. *)
Theorem C47_block_comment : forall w s l e a k b, tokens w s = (l, e) -> l = a ++ k :: b -> starts_block k ->
  exists c d rest, b = c ++ d /\ s = text_of a ++ k_text k ++ text_of c ++ rest /\
    ((exists c0 z, c = c0 ++ [z] /\ Forall inner c0 /\ finishes z /\ exists v, text_of c = v ++ [42; 47] /\ ~ occurs [42; 47] (v ++ [42])) \/
     d = [] /\ Forall inner c /\ ~ occurs [42; 47] (text_of c)).
Proof. exact block_comment. Qed.
Print Assumptions C47_block_comment.
(** A line comment, in any source: to before the next newline, which may be the token that ends it, or to the end. *)
Theorem C47_line_comment : forall w s l e a k b, In (s_lang w) languages -> tokens w s = (l, e) -> l = a ++ k :: b -> starts_line k ->
  exists c d rest, b = c ++ d /\ s = text_of a ++ k_text k ++ text_of c ++ rest /\
    ((exists c0 z, c = c0 ++ [z] /\ Forall inner c0 /\ finishes z /\ ~ In 10 (text_of c0) /\
       (k_text z = [10] \/ ~ In 10 (k_text z) /\ (rest = [] \/ exists u, rest = 10 :: u))) \/
     d = [] /\ rest = [] /\ Forall inner c /\ ~ In 10 (text_of c)).
Proof. exact line_comment. Qed.
Print Assumptions C47_line_comment.
(** A raw string, outside of directives: from the quote and the delimiter to the first closing parenthesis, delimiter and quote, and the quotes
    right after that (C47_adjacent_refuted), or to the end. *)
Theorem C47_raw_string : forall w s l e a k b pre d, simple_macros (s_macros w) -> tokens w s = (l, e) -> l = a ++ k :: b -> Forall (fun t => k_type t <> PREPROC) a ->
  k_type k = STRING_START -> k_text k = pre ++ [82; 34] ++ d ++ [40] -> ~ In 34 pre -> Forall (fun c => c <= 127) d ->
  exists c b2 rest, b = c ++ b2 /\ s = text_of a ++ k_text k ++ text_of c ++ rest /\
    ((exists c0 z, c = c0 ++ [z] /\ Forall inner c0 /\ finishes z /\ exists v q, text_of c = v ++ ([41] ++ d ++ [34]) ++ q /\ Forall (fun x => x = 34) q /\ ~ occurs ([41] ++ d ++ [34]) (v ++ [41] ++ d)) \/
     b2 = [] /\ rest = [] /\ Forall (fun t => inner t \/ finishes t) c /\ ~ occurs ([41] ++ d ++ [34]) (text_of c)).
Proof. exact raw_string. Qed.
Print Assumptions C47_raw_string.
(** a delimiter outside of ASCII is not found again: the string goes to the end *)
Theorem C47_raw_delimiter_refuted : exists l, tokens (Setting 2 [] 8) (txt "R""" ++ [195; 169] ++ txt "(a)" ++ [195; 169] ++ txt """; b") = (l, AtEnd) /\ map k_type l = [STRING_START; Ends RAW_STRING_END].
Proof. exact raw_accent. Qed.
Print Assumptions C47_raw_delimiter_refuted.
(** in a directive the newline inside of a raw string ends it *)
Theorem C47_raw_directive_refuted : exists l, tokens (Setting 2 [] 8) (txt "#define A R""(a" ++ [10] ++ txt "b)"" c") = (l, AtEnd) /\ In (Tok NAME (txt "b") 2 1) l.
Proof. exact raw_directive. Qed.
Print Assumptions C47_raw_directive_refuted.
(** x="a""b"; : the quote that ends a string takes the quote that starts the next one along *)
Theorem C47_adjacent_refuted : exists l, tokens cxx (txt "x=""a""""b"";") = (l, AtEnd) /\ marked Code l <> map plain (regions Code (txt "x=""a""""b"";")).
Proof. exact adjacent. Qed.
Print Assumptions C47_adjacent_refuted.
(** a comment that begins slash star ! slash is taken for a whole one *)
Theorem C47_whole_refuted : exists l, tokens cxx (txt "/*!/ a */ b;") = (l, AtEnd) /\ marked Code l <> map plain (regions Code (txt "/*!/ a */ b;")).
Proof. exact whole_early. Qed.
Print Assumptions C47_whole_refuted.
(** C#: a verbatim string, in which two quotes stand for one, ends at two quotes after a backslash *)
Theorem C47_verbatim_refuted : types (tokens (Setting 8 [] 8) (txt "@""a\""""b"";")) =
  [(STRING_START, txt "@"""); (Ends STRING_END, txt "a\"""); (STRING_START, txt """"); (Ends STRING_END, txt "b"""); (Kw (txt "TERMINATE"), txt ";")].
Proof. exact verbatim. Qed.
Print Assumptions C47_verbatim_refuted.
(** C++: the separator in a number starts a character literal that has no end *)
Theorem C47_separator_refuted : types (tokens cxx (txt "1'000;")) = [(CONSTANTS, txt "1"); (CHAR_START, txt "'"); (COMMENT_TEXT, txt "000;")].
Proof. exact separator. Qed.
Print Assumptions C47_separator_refuted.
Definition source47 : bytes := txt "a=""\""/*""+'""'; /* "" */ b // '" ++ [10] ++ txt "c".
Fixpoint found (x s : bytes) : bool := beqb (firstn (length x) s) x || match s with [] => false | _ :: r => found x r end.
Lemma found_ok : forall x s, found x s = false -> ~ occurs x s.
Proof.
  intros x s F (a & b & ->). revert F. induction a as [|c a IH]; intros F; cbn [app] in F.
  - assert (E : beqb (firstn (length x) (x ++ b)) x = true). { apply Text_Proofs3.beqb_true. rewrite firstn_app, Nat.sub_diag, firstn_all. cbn. apply app_nil_r. } destruct (x ++ b); cbn [found] in F; rewrite E in F; discriminate F.
  - cbn [found] in F. apply orb_false_elim in F as (_ & F). exact (IH F).
Qed.
Fixpoint spoilt (s : bytes) (ls : list region) : bool :=
  match s, ls with
  | c :: s, x :: ls => ((c =? 10) && match x with Str | Chr => true | _ => false end) || (match x with StrEnd => true | _ => false end && (hd 0 s =? 34)) || spoilt s ls
  | _, _ => false
  end.
Lemma spoilt_ok : forall s ls, spoilt s ls = false -> ~ broken s ls /\ ~ doubled s ls.
Proof.
  induction s as [|c s IH]; intros ls F.
  - split; intros ([|i] & X & Y); cbn in *; try discriminate X; discriminate Y.
  - destruct ls as [|x ls]; [split; intros ([|i] & X & Y); cbn in *; try discriminate X; destruct Y as [Y|Y]; discriminate Y|].
    cbn [spoilt] in F. apply orb_false_elim in F as (F & F3). apply orb_false_elim in F as (F1 & F2). destruct (IH _ F3) as (I1 & I2). split.
    + intros ([|i] & X & Y); [|apply I1; exists i; auto]. cbn in X, Y. injection X as ->. destruct Y as [Y|Y]; injection Y as ->; discriminate F1.
    + intros ([|i] & X & Y); [|apply I2; exists i; auto]. cbn in X. injection X as ->. destruct s as [|d s]; [discriminate Y|]. cbn in Y. injection Y as ->. discriminate F2.
Qed.
Example C47_example : exists l, tokens cxx source47 = (l, AtEnd) /\ ~ unusual source47 /\ ~ doubled source47 (regions Code source47) /\ ~ broken source47 (regions Code source47) /\
  In (s_lang cxx) languages /\ simple_macros (s_macros cxx) /\ marked Code l = map plain (regions Code source47) /\ In Line (marked Code l) /\ In Block (marked Code l) /\ In Str (marked Code l) /\ In Chr (marked Code l) /\
  (exists k, In k l /\ starts_block k) /\ (exists k, In k l /\ starts_line k).
Proof.
  eexists. split; [vm_compute; reflexivity|]. split; [intros [H|[H|H]]; revert H; apply found_ok; vm_compute; reflexivity|].
  assert (S : spoilt source47 (regions Code source47) = false) by (vm_compute; reflexivity). destruct (spoilt_ok _ _ S) as (S1 & S2). split; [exact S2|]. split; [exact S1|].
  split; [cbn; tauto|]. split; [constructor|]. split; [vm_compute; reflexivity|]. repeat (split; [cbn; tauto|]).
  split; [exists (Tok BLOCK_COMMENT_START [47; 42] 1 15)|exists (Tok LINE_COMMENT_START [47; 47] 1 25)]; (split; [cbn; tauto|left; reflexivity]).
Qed.

Example C47_raw_example : exists l a k b, tokens cxx (txt "x=uR""d(a)e""" ++ [10] ++ txt ")d"";") = (l, AtEnd) /\ l = a ++ k :: b /\ Forall (fun t => k_type t <> PREPROC) a /\
  k_type k = STRING_START /\ k_text k = txt "u" ++ [82; 34] ++ txt "d" ++ [40] /\ ~ In 34 (txt "u") /\ text_of b = txt "a)e""" ++ [10] ++ txt ")d"";".
Proof.
  eexists. exists [Tok NAME (txt "x") 1 1; Tok (Kw (txt "EQUAL")) (txt "=") 1 2], (Tok STRING_START (txt "uR""d(") 1 3). eexists.
  split; [vm_compute; reflexivity|]. split; [reflexivity|]. split; [repeat constructor; discriminate|]. split; [reflexivity|]. split; [reflexivity|].
  split; [intros [I|[]]; discriminate I|reflexivity].
Qed.

(** ** C48: the position of a token *)
(** its line: one more than the newlines before it *)
Theorem C48_line : forall w s l e a t b, tokens w s = (l, e) -> l = a ++ t :: b -> k_line t = line_after (text_of a).
Proof. exact tokens_line. Qed.
Print Assumptions C48_line.
(** its column: with the tab stop of the archive, if it is 8 or the tabs before it are outside of comments and literals *)
Theorem C48_column : forall w s l e a t b, tokens w s = (l, e) -> l = a ++ t :: b -> s_tabsize w = 8 \/ Forall tab_outside a ->
  k_col t = column_after (s_tabsize w) (text_of a).
Proof. exact tokens_column. Qed.
Print Assumptions C48_column.
(** in a comment tabs go to multiples of 8, whatever the tab stop *)
Theorem C48_tabstop_refuted : exists l t, tokens (Setting 2 [] 4) (txt "/*" ++ [9] ++ txt "*/b;") = (l, AtEnd) /\ In t l /\ k_type t = NAME /\ k_col t = 11 /\
  column_after 4 (txt "/*" ++ [9] ++ txt "*/") = 7.
Proof. exact tabbed. Qed.
Print Assumptions C48_tabstop_refuted.
Example C48_example : exists l a t b, tokens (Setting 2 [] 4) (txt "a" ++ [9] ++ txt "/*" ++ [10] ++ txt "*/" ++ [9] ++ txt "b") = (l, AtEnd) /\ l = a ++ t :: b /\ Forall tab_outside a /\
  k_text t = txt "b" /\ k_line t = 2 /\ k_col t = 5.
Proof.
  eexists. exists [Tok NAME [97] 1 1; Tok WS [9] 1 2; Tok BLOCK_COMMENT_START [47; 42] 1 5; Tok (Ends BLOCK_COMMENT_END) [10; 42; 47] 1 7; Tok WS [9] 2 3], (Tok NAME [98] 2 5), [].
  split; [vm_compute; reflexivity|]. split; [reflexivity|]. split; [|repeat split; reflexivity].
  repeat constructor; unfold tab_outside; cbn; intros I; try reflexivity; repeat (destruct I as [I|I]; [discriminate I|]); destruct I.
Qed.

(** ** C49: keywords and macros *)
(** No name is a macro registered under a known type; a macro is one registered; neither is a keyword of the language. *)
Theorem C49_names : forall w s l e t ty, tokens w s = (l, e) -> In t l -> k_type t = NAME -> In (k_text t, ty) (s_macros w) -> ~ In ty macro_types.
Proof. exact names_unregistered. Qed.
Print Assumptions C49_names.
Theorem C49_macros : forall w s l e t, tokens w s = (l, e) -> In t l -> k_type t = MACRO_NAME -> In (k_text t, txt "src:macro") (s_macros w).
Proof. exact macros_registered. Qed.
Print Assumptions C49_macros.
Theorem C49_keywords : forall w s l e t k x, tokens w s = (l, e) -> In t l -> k_type t = NAME \/ k_type t = MACRO_NAME -> In (k_text t, k, x) keyword_map ->
  inLanguage (s_lang w) x = false.
Proof. exact names_not_keywords. Qed.
Print Assumptions C49_keywords.
(** A name or a keyword is as long as it can be: it does not end before a character that could be part of it. *)
Theorem C49_whole_words : forall w s l e a t b, tokens w s = (l, e) -> l = a ++ t :: b -> word (k_text t) -> k_type t <> COMMENT_TEXT -> ~ finishes t ->
  exists rest, s = text_of a ++ k_text t ++ rest /\ match rest with c :: _ => ~ word_char c | [] => True end.
Proof. exact whole_word. Qed.
Print Assumptions C49_whole_words.
Example C49_example : exists l, tokens (Setting 2 [(txt "M", txt "src:macro"); (txt "if", txt "src:macro"); (txt "N", txt "other")] 8) (txt "M if N") = (l, AtEnd) /\
  map k_type l = [MACRO_NAME; WS; Kw (txt "IF"); WS; NAME] /\ In (txt "N", txt "other") [(txt "M", txt "src:macro"); (txt "if", txt "src:macro"); (txt "N", txt "other")].
Proof. eexists. split; [vm_compute; reflexivity|]. split; [reflexivity|]. right. right. left. reflexivity. Qed.
