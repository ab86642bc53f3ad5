(** Model of the lexers: src/parser/TextLexer.g, OperatorLexer.g, KeywordLexer.g (one lexer, the others are its ancestors) and
    CommentTextLexer.g, switched by an antlr::TokenStreamSelector (srcml_translator.cpp:123-143).
    External: ANTLR 2.7.  A generated lexer looks at one character (k = 1); an optional or repeated part is entered when the next character
    can start it and its predicate holds (greedy); a token's text is what its rule consumed; a character that starts no rule raises an
    exception that is not caught (defaultErrorHandler = false) and consumes nothing; line and column are those of CharScanner.
    Simplified: SRCML_OPTION_LINE is off; nothing sets isline (TextLexer.g:119-121, 203-204 are dead); a column is not beyond int. *)
From Verif Require Import Base Text_Model Parser_Model.
Local Open Scope N_scope.

(** ** Token types *)
(** CommentTextLexer.g:57-71: the tokens that end a comment or a literal; also the mode of the text lexer *)
Inductive mode := BLOCK_COMMENT_END | LINE_COMMENT_END | RAW_STRING_END | STRING_END | CHAR_END
  | LINE_DOXYGEN_COMMENT_END | JAVADOC_COMMENT_END | DOXYGEN_COMMENT_END.
(** [Kw]: the tokens that only the table of literals gives, by their name *)
Inductive tk := STRING_START | CHAR_START | CONSTANTS | COMPLEX_NUMBER | NAME
  | LINE_COMMENT_START | LINE_DOXYGEN_COMMENT_START | BLOCK_COMMENT_START | JAVADOC_COMMENT_START | DOXYGEN_COMMENT_START | WHOLE_COMMENT
  | WS | EOL | CONTROL_CHAR | OPERATORS | PREPROC | EOL_BACKSLASH
  | COMMENT_TEXT | Ends (m : mode) | MACRO_NAME | VISUAL_CXX_ASM | Kw (name : bytes).

(** ** Languages (Language.hpp:82-116, 134-136) *)
Definition C : N := 1.
Definition CXX : N := 2.
Definition JAVA : N := 4.
Definition CSHARP : N := 8.
Definition OBJECTIVE_C : N := 16.
Definition CXX_FAMILY : N := N.lor CXX CSHARP.
Definition C_FAMILY : N := N.lor C (N.lor CXX_FAMILY OBJECTIVE_C).
Definition OO : N := N.lor CXX_FAMILY JAVA.
Definition ALL : N := 31.
Definition inLanguage (lang l : N) : bool := 0 <? N.land l lang.

(** ** Literals (KeywordLexer.g:346-670, 331-344) *)
Definition keyword_map : list (bytes * tk * N) :=
  [
   (txt "if", Kw (txt "IF"), ALL);
   (txt "else", Kw (txt "ELSE"), ALL);
   (txt "while", Kw (txt "WHILE"), ALL);
   (txt "for", Kw (txt "FOR"), ALL);
   (txt "do", Kw (txt "DO"), ALL);
   (txt "break", Kw (txt "BREAK"), ALL);
   (txt "continue", Kw (txt "CONTINUE"), ALL);
   (txt "switch", Kw (txt "SWITCH"), ALL);
   (txt "case", Kw (txt "CASE"), ALL);
   (txt "default", Kw (txt "DEFAULT"), ALL);
   (txt "return", Kw (txt "RETURN"), ALL);
   (txt "enum", Kw (txt "ENUM"), ALL);
   (txt "static", Kw (txt "STATIC"), ALL);
   (txt "const", Kw (txt "CONST"), ALL);
   (txt ")", Kw (txt "RPAREN"), ALL);
   (txt ";", Kw (txt "TERMINATE"), ALL);
   (txt "(", Kw (txt "LPAREN"), ALL);
   (txt "~", Kw (txt "DESTOP"), ALL);
   (txt ":", Kw (txt "COLON"), ALL);
   (txt "}", Kw (txt "RCURLY"), ALL);
   (txt ",", Kw (txt "COMMA"), ALL);
   (txt "]", Kw (txt "RBRACKET"), ALL);
   (txt "{", Kw (txt "LCURLY"), ALL);
   (txt "[", Kw (txt "LBRACKET"), ALL);
   (txt "<", Kw (txt "TEMPOPS"), ALL);
   (txt ">", Kw (txt "TEMPOPE"), ALL);
   (txt "&", Kw (txt "REFOPS"), ALL);
   (txt "=", Kw (txt "EQUAL"), ALL);
   (txt ".", Kw (txt "PERIOD"), ALL);
   (txt "*", Kw (txt "MULTOPS"), ALL);
   (txt "*=", Kw (txt "ASSIGNMENT"), ALL);
   (txt "%=", Kw (txt "ASSIGNMENT"), ALL);
   (txt "/=", Kw (txt "ASSIGNMENT"), ALL);
   (txt "/", OPERATORS, ALL);
   (txt "^", Kw (txt "BLOCKOP"), ALL);
   (txt "^=", Kw (txt "ASSIGNMENT"), ALL);
   (txt "|=", Kw (txt "ASSIGNMENT"), ALL);
   (txt "||=", Kw (txt "ASSIGNMENT"), ALL);
   (txt "+=", Kw (txt "ASSIGNMENT"), ALL);
   (txt "-=", Kw (txt "ASSIGNMENT"), ALL);
   (txt "->", Kw (txt "TRETURN"), ALL);
   (txt "->*", Kw (txt "MPDEREF"), ALL);
   (txt "?", Kw (txt "QMARK"), ALL);
   (txt "..", Kw (txt "DOTDOT"), ALL);
   (txt "...", Kw (txt "DOTDOTDOT"), ALL);
   (txt "&=", Kw (txt "ASSIGNMENT"), ALL);
   (txt "&&=", Kw (txt "ASSIGNMENT"), ALL);
   (txt ">>=", Kw (txt "ASSIGNMENT"), ALL);
   (txt "<<=", Kw (txt "ASSIGNMENT"), ALL);
   (txt ".*", Kw (txt "DOTDEREF"), C_FAMILY);
   (txt "-", Kw (txt "MSPEC"), JAVA);
   (txt "+", Kw (txt "CSPEC"), JAVA);
   (txt "<<<", Kw (txt "CUDA"), N.lor C CXX);
   (txt "=>", Kw (txt "LAMBDA"), CSHARP);
   (txt "@", Kw (txt "ATSIGN"), ALL);
   (txt "u""", STRING_START, ALL);
   (txt "u8""", STRING_START, ALL);
   (txt "U""", STRING_START, ALL);
   (txt "L""", STRING_START, ALL);
   (txt "R""", STRING_START, CXX);
   (txt "LR""", STRING_START, CXX);
   (txt "uR""", STRING_START, CXX);
   (txt "UR""", STRING_START, CXX);
   (txt "u8R""", STRING_START, CXX);
   (txt "main", Kw (txt "MAIN"), C_FAMILY);
   (txt "typedef", Kw (txt "TYPEDEF"), C_FAMILY);
   (txt "include", Kw (txt "INCLUDE"), N.lor C_FAMILY JAVA);
   (txt "define", Kw (txt "DEFINE"), N.lor C_FAMILY JAVA);
   (txt "elif", Kw (txt "ELIF"), N.lor C_FAMILY JAVA);
   (txt "endif", Kw (txt "ENDIF"), N.lor C_FAMILY JAVA);
   (txt "error", Kw (txt "ERRORPREC"), N.lor C_FAMILY JAVA);
   (txt "warning", Kw (txt "WARNING"), N.lor C_FAMILY JAVA);
   (txt "ifdef", Kw (txt "IFDEF"), N.lor C_FAMILY JAVA);
   (txt "ifndef", Kw (txt "IFNDEF"), N.lor C_FAMILY JAVA);
   (txt "line", Kw (txt "LINE"), N.lor C_FAMILY JAVA);
   (txt "pragma", Kw (txt "PRAGMA"), N.lor C_FAMILY JAVA);
   (txt "undef", Kw (txt "UNDEF"), N.lor C_FAMILY JAVA);
   (txt "union", Kw (txt "UNION"), N.lor C CXX);
   (txt "struct", Kw (txt "STRUCT"), C_FAMILY);
   (txt "void", Kw (txt "VOID"), ALL);
   (txt "inline", Kw (txt "INLINE"), C_FAMILY);
   (txt "extern", Kw (txt "EXTERN"), C_FAMILY);
   (txt "asm", Kw (txt "ASM"), C_FAMILY);
   (txt "__asm__", Kw (txt "ASM"), C_FAMILY);
   (txt "__asm", VISUAL_CXX_ASM, C_FAMILY);
   (txt "goto", Kw (txt "GOTO"), ALL);
   (txt "sizeof", Kw (txt "SIZEOF"), C_FAMILY);
   (txt "register", Kw (txt "REGISTER"), N.lor C CXX);
   (txt "mutable", Kw (txt "MUTABLE"), CXX);
   (txt "volatile", Kw (txt "VOLATILE"), ALL);
   (txt "__volatile__", Kw (txt "VOLATILE"), C_FAMILY);
   (txt "auto", Kw (txt "AUTO"), N.lor CXX C);
   (txt "restrict", Kw (txt "RESTRICT"), C);
   (txt "_Alignas", Kw (txt "ALIGNAS"), C);
   (txt "_Alignof", Kw (txt "ALIGNOF"), C);
   (txt "_Atomic", Kw (txt "ATOMIC"), C);
   (txt "_Complex", Kw (txt "COMPLEX"), C);
   (txt "_Generic", Kw (txt "GENERIC_SELECTION"), C);
   (txt "_Imaginary", Kw (txt "IMAGINARY"), C);
   (txt "_Noreturn", Kw (txt "NORETURN"), C);
   (txt "_Static_assert", Kw (txt "STATIC_ASSERT"), C);
   (txt "_Thread_local", Kw (txt "THREAD_LOCAL"), C);
   (txt "try", Kw (txt "TRY"), OO);
   (txt "catch", Kw (txt "CATCH"), OO);
   (txt "throw", Kw (txt "THROW"), OO);
   (txt "class", Kw (txt "CLASS"), OO);
   (txt "public", Kw (txt "PUBLIC"), OO);
   (txt "private", Kw (txt "PRIVATE"), OO);
   (txt "protected", Kw (txt "PROTECTED"), OO);
   (txt "new", Kw (txt "NEW"), OO);
   (txt "signals", Kw (txt "SIGNAL"), CXX);
   (txt "foreach", Kw (txt "FOREACH"), CXX);
   (txt "forever", Kw (txt "FOREVER"), CXX);
   (txt "emit", Kw (txt "EMIT"), CXX);
   (txt "virtual", Kw (txt "VIRTUAL"), CXX_FAMILY);
   (txt "friend", Kw (txt "FRIEND"), CXX);
   (txt "operator", Kw (txt "OPERATOR"), CXX_FAMILY);
   (txt "explicit", Kw (txt "EXPLICIT"), CXX_FAMILY);
   (txt "namespace", Kw (txt "NAMESPACE"), CXX_FAMILY);
   (txt "using", Kw (txt "USING"), CXX_FAMILY);
   (txt "template", Kw (txt "TEMPLATE"), CXX);
   (txt "delete", Kw (txt "DELETE"), CXX);
   (txt "::", Kw (txt "DCOLON"), CXX_FAMILY);
   (txt "&&", Kw (txt "RVALUEREF"), CXX_FAMILY);
   (txt "false", Kw (txt "LITERAL_FALSE"), OO);
   (txt "true", Kw (txt "LITERAL_TRUE"), OO);
   (txt "final", Kw (txt "FINAL"), CXX);
   (txt "override", Kw (txt "OVERRIDE"), CXX);
   (txt "constexpr", Kw (txt "CONSTEXPR"), CXX);
   (txt "noexcept", Kw (txt "NOEXCEPT"), CXX);
   (txt "thread_local", Kw (txt "THREAD_LOCAL"), CXX);
   (txt "nullptr", Kw (txt "NULLPTR"), CXX);
   (txt "decltype", Kw (txt "DECLTYPE"), CXX);
   (txt "alignas", Kw (txt "ALIGNAS"), CXX);
   (txt "typename", Kw (txt "TYPENAME"), CXX);
   (txt "alignof", Kw (txt "ALIGNOF"), CXX);
   (txt "typeid", Kw (txt "TYPEID"), CXX);
   (txt "const_cast", Kw (txt "CONST_CAST"), CXX);
   (txt "dynamic_cast", Kw (txt "DYNAMIC_CAST"), CXX);
   (txt "reinterpret_cast", Kw (txt "REINTERPRET_CAST"), CXX);
   (txt "static_cast", Kw (txt "STATIC_CAST"), CXX);
   (txt "static_assert", Kw (txt "STATIC_ASSERT"), CXX);
   (txt "and", OPERATORS, CXX);
   (txt "and_eq", OPERATORS, CXX);
   (txt "bitand", OPERATORS, CXX);
   (txt "bitor", OPERATORS, CXX);
   (txt "compl", OPERATORS, CXX);
   (txt "not", OPERATORS, CXX);
   (txt "not_eq", OPERATORS, CXX);
   (txt "or", OPERATORS, CXX);
   (txt "or_eq", OPERATORS, CXX);
   (txt "xor", OPERATORS, CXX);
   (txt "xor_eq", OPERATORS, CXX);
   (txt "throws", Kw (txt "THROWS"), JAVA);
   (txt "finally", Kw (txt "FINALLY"), JAVA);
   (txt "interface", Kw (txt "INTERFACE"), JAVA);
   (txt "extends", Kw (txt "EXTENDS"), JAVA);
   (txt "implements", Kw (txt "IMPLEMENTS"), JAVA);
   (txt "super", Kw (txt "SUPER"), JAVA);
   (txt "import", Kw (txt "IMPORT"), JAVA);
   (txt "package", Kw (txt "PACKAGE"), JAVA);
   (txt "final", Kw (txt "FINAL"), JAVA);
   (txt "abstract", Kw (txt "ABSTRACT"), JAVA);
   (txt "synchronized", Kw (txt "SYNCHRONIZED"), JAVA);
   (txt "native", Kw (txt "NATIVE"), JAVA);
   (txt "strictfp", Kw (txt "STRICTFP"), JAVA);
   (txt "transient", Kw (txt "TRANSIENT"), JAVA);
   (txt "|", Kw (txt "BAR"), JAVA);
   (txt "@", Kw (txt "ATSIGN"), JAVA);
   (txt "null", Kw (txt "NULLLITERAL"), JAVA);
   (txt "instanceof", OPERATORS, JAVA);
   (txt "assert", Kw (txt "ASSERT"), JAVA);
   (txt "foreach", Kw (txt "FOREACH"), CSHARP);
   (txt "ref", Kw (txt "REF"), CSHARP);
   (txt "out", Kw (txt "OUT"), CSHARP);
   (txt "in", Kw (txt "IN"), CSHARP);
   (txt "lock", Kw (txt "LOCK"), CSHARP);
   (txt "is", Kw (txt "IS"), CSHARP);
   (txt "internal", Kw (txt "INTERNAL"), CSHARP);
   (txt "sealed", Kw (txt "SEALED"), CSHARP);
   (txt "override", Kw (txt "OVERRIDE"), CSHARP);
   (txt "explicit", Kw (txt "EXPLICIT"), CSHARP);
   (txt "implicit", Kw (txt "IMPLICIT"), CSHARP);
   (txt "stackalloc", Kw (txt "STACKALLOC"), CSHARP);
   (txt "as", Kw (txt "AS"), CSHARP);
   (txt "interface", Kw (txt "INTERFACE"), CSHARP);
   (txt "delegate", Kw (txt "DELEGATE"), CSHARP);
   (txt "fixed", Kw (txt "FIXED"), CSHARP);
   (txt "checked", Kw (txt "CHECKED"), CSHARP);
   (txt "unchecked", Kw (txt "UNCHECKED"), CSHARP);
   (txt "finally", Kw (txt "FINALLY"), CSHARP);
   (txt "region", Kw (txt "REGION"), CSHARP);
   (txt "endregion", Kw (txt "ENDREGION"), CSHARP);
   (txt "unsafe", Kw (txt "UNSAFE"), CSHARP);
   (txt "readonly", Kw (txt "READONLY"), CSHARP);
   (txt "partial", Kw (txt "PARTIAL"), CSHARP);
   (txt "get", Kw (txt "GET"), CSHARP);
   (txt "set", Kw (txt "SET"), CSHARP);
   (txt "add", Kw (txt "ADD"), CSHARP);
   (txt "remove", Kw (txt "REMOVE"), CSHARP);
   (txt "await", Kw (txt "AWAIT"), CSHARP);
   (txt "abstract", Kw (txt "ABSTRACT"), CSHARP);
   (txt "event", Kw (txt "EVENT"), CSHARP);
   (txt "async", Kw (txt "ASYNC"), CSHARP);
   (txt "this", Kw (txt "THIS"), CSHARP);
   (txt "yield", Kw (txt "YIELD"), CSHARP);
   (txt "params", Kw (txt "PARAMS"), CSHARP);
   (txt "null", Kw (txt "NULLLITERAL"), CSHARP);
   (txt "typeof", Kw (txt "TYPEOF"), CSHARP);
   (txt "alias", Kw (txt "ALIAS"), CSHARP);
   (txt "from", Kw (txt "FROM"), CSHARP);
   (txt "where", Kw (txt "WHERE"), CSHARP);
   (txt "select", Kw (txt "SELECT"), CSHARP);
   (txt "let", Kw (txt "LET"), CSHARP);
   (txt "orderby", Kw (txt "ORDERBY"), CSHARP);
   (txt "ascending", Kw (txt "ASCENDING"), CSHARP);
   (txt "descending", Kw (txt "DESCENDING"), CSHARP);
   (txt "group", Kw (txt "GROUP"), CSHARP);
   (txt "by", Kw (txt "BY"), CSHARP);
   (txt "join", Kw (txt "JOIN"), CSHARP);
   (txt "on", Kw (txt "ON"), CSHARP);
   (txt "equals", Kw (txt "EQUALS"), CSHARP);
   (txt "into", Kw (txt "INTO"), CSHARP);
   (txt "@interface", Kw (txt "ATINTERFACE"), OBJECTIVE_C);
   (txt "@implementation", Kw (txt "ATIMPLEMENTATION"), OBJECTIVE_C);
   (txt "@protocol", Kw (txt "ATPROTOCOL"), OBJECTIVE_C);
   (txt "@end", Kw (txt "ATEND"), OBJECTIVE_C);
   (txt "@private", Kw (txt "PRIVATE"), OBJECTIVE_C);
   (txt "@protected", Kw (txt "PROTECTED"), OBJECTIVE_C);
   (txt "@public", Kw (txt "PUBLIC"), OBJECTIVE_C);
   (txt "@required", Kw (txt "ATREQUIRED"), OBJECTIVE_C);
   (txt "@optional", Kw (txt "ATOPTIONAL"), OBJECTIVE_C);
   (txt "import", Kw (txt "IMPORT"), OBJECTIVE_C);
   (txt "@try", Kw (txt "TRY"), OBJECTIVE_C);
   (txt "@catch", Kw (txt "CATCH"), OBJECTIVE_C);
   (txt "@finally", Kw (txt "FINALLY"), OBJECTIVE_C);
   (txt "@throw", Kw (txt "THROW"), OBJECTIVE_C);
   (txt "@synchronized", Kw (txt "SYNCHRONIZED"), OBJECTIVE_C);
   (txt "@property", Kw (txt "PROPERTY"), OBJECTIVE_C);
   (txt "@synthesize", Kw (txt "SYNTHESIZE"), OBJECTIVE_C);
   (txt "@dynamic", Kw (txt "DYNAMIC"), OBJECTIVE_C);
   (txt "in", Kw (txt "IN"), OBJECTIVE_C);
   (txt "@YES", Kw (txt "LITERAL_TRUE"), OBJECTIVE_C);
   (txt "@NO", Kw (txt "LITERAL_FALSE"), OBJECTIVE_C);
   (txt "YES", Kw (txt "LITERAL_TRUE"), OBJECTIVE_C);
   (txt "NO", Kw (txt "LITERAL_FALSE"), OBJECTIVE_C);
   (txt "@true", Kw (txt "LITERAL_TRUE"), OBJECTIVE_C);
   (txt "@false", Kw (txt "LITERAL_FALSE"), OBJECTIVE_C);
   (txt "@encode", Kw (txt "ENCODE"), OBJECTIVE_C);
   (txt "@selector", Kw (txt "SELECTOR"), OBJECTIVE_C);
   (txt "@autoreleasepool", Kw (txt "AUTORELEASEPOOL"), OBJECTIVE_C);
   (txt "@compatibility_alias", Kw (txt "COMPATIBILITY_ALIAS"), OBJECTIVE_C);
   (txt "@class", Kw (txt "ATCLASS"), OBJECTIVE_C);
   (txt "nil", Kw (txt "NIL"), OBJECTIVE_C);
   (txt "@(", Kw (txt "LPAREN"), OBJECTIVE_C);
   (txt "@[", Kw (txt "ATLBRACKET"), OBJECTIVE_C);
   (txt "@{", Kw (txt "LCURLY"), OBJECTIVE_C);
   (txt "__block", Kw (txt "BLOCK"), N.lor (N.lor CXX C) OBJECTIVE_C);
   (txt "__weak", Kw (txt "WEAK"), N.lor (N.lor CXX C) OBJECTIVE_C);
   (txt "__strong", Kw (txt "STRONG"), N.lor (N.lor CXX C) OBJECTIVE_C);
   (txt "restrict", Kw (txt "CRESTRICT"), CXX);
   (txt "try", Kw (txt "CXX_TRY"), CXX);
   (txt "catch", Kw (txt "CXX_CATCH"), CXX);
   (txt "class", Kw (txt "CXX_CLASS"), CXX);
   (txt "omp", Kw (txt "OMP_OMP"), C_FAMILY)  ].
(** 666-669: literals[text] = token, in order, so that the last entry stays *)
Definition keyword_of (lang : N) (t : bytes) : option tk :=
  match find (fun e => beqb (fst (fst e)) t && inLanguage lang (snd e)) (rev keyword_map) with Some (_, k, _) => Some k | None => None end.
(** 331-344: the types of a registered macro that are known *)
Definition macro_token (type : bytes) : option tk :=
  if beqb type (txt "src:macro") then Some MACRO_NAME
  else if beqb type (txt "src:name") then Some (Kw (txt "MACRO_TYPE_NAME"))
  else if beqb type (txt "src:type") then Some (Kw (txt "MACRO_TYPE_NAME"))
  else if beqb type (txt "src:case") then Some (Kw (txt "MACRO_CASE"))
  else if beqb type (txt "src:label") then Some (Kw (txt "MACRO_LABEL"))
  else if beqb type (txt "src:specifier") then Some (Kw (txt "MACRO_SPECIFIER"))
  else None.
(** the macro list as pairs of token and type; the last entry of known type stays *)
Fixpoint macro_of (macros : list (bytes * bytes)) (t : bytes) : option tk :=
  match macros with
  | [] => None
  | (n, ty) :: l => match macro_of l t with
                    | Some k => Some k
                    | None => if beqb n t then macro_token ty else None
                    end
  end.
(** the keywords are filled in after the macros *)
Definition literals (lang : N) (macros : list (bytes * bytes)) (t : bytes) : option tk :=
  match keyword_of lang t with Some k => Some k | None => macro_of macros t end.

(** ** State *)
(** KeywordLexer.g:303-315 *)
Record main := Main { onpreprocline : bool; startline : bool; atstring : bool; lastpos : N; prev : N }.
Definition new_main : main := Main false true false 0 0.
(** CommentTextLexer.g:74-111: what init sets *)
Record textual := Textual { t_mode : mode; t_onpreprocline : bool; t_noescape : bool; t_delimiter : bytes }.
(** KeywordLexer.g:51-55 changetotextlexer *)
Definition changetotextlexer (m : main) (e : mode) (delim : bytes) : textual := Textual e (onpreprocline m) (atstring m) delim.
Definition set_startline (b : bool) (m : main) : main := Main (onpreprocline m) b (atstring m) (lastpos m) (prev m).

(** ** Parts of rules: the text matched so far and the input *)
(** ( p )* and ( p )? *)
Fixpoint many (p : N -> bool) (t s : bytes) : bytes * bytes :=
  match s with c :: r => if p c then many p (t ++ [c]) r else (t, s) | [] => (t, s) end.
Definition opt (p : N -> bool) (t s : bytes) : bytes * bytes :=
  match s with c :: r => if p c then (t ++ [c], r) else (t, s) | [] => (t, s) end.
Definition is (c : N) : N -> bool := N.eqb c.
Definition digit (c : N) : bool := (48 <=? c) && (c <=? 57).
(** TextLexer.g:126-127 *)
Definition name_start (c : N) : bool :=
  ((97 <=? c) && (c <=? 122)) || ((65 <=? c) && (c <=? 90)) || (c =? 95) || (128 <=? c) || (c =? 36).
Definition name_char (c : N) : bool := digit c || name_start c.
(** what a rule gives: type, text, the rest, the lexer's state, and the text lexer that goes on, if any *)
Record matched := Matched { m_type : tk; m_text : bytes; m_rest : bytes; m_main : main; m_push : option textual }.

(** TextLexer.g:62-77 STRING_START, after its text [t] with the quote *)
Definition string_start (m : main) (t r : bytes) : matched :=
  let m := set_startline false m in
  Matched STRING_START t r (Main (onpreprocline m) (startline m) false (lastpos m) (prev m)) (Some (changetotextlexer m STRING_END [])).
(** 96-100 and CommentTextLexer.g:251-256: not in a delimiter *)
Definition delimiter_char (c : N) : bool := negb ((c =? 40) || (c =? 41) || (c =? 92) || (c =? 10) || (c =? 32) || (c =? 9)).
(** 79-94 RAW_STRING_START *)
Definition raw_string_start (m : main) (t r : bytes) : matched :=
  let m := set_startline false m in
  let (d, r1) := many delimiter_char [] r in
  let (t2, r2) := opt (is 40) (t ++ d) r1 in
  Matched STRING_START t2 r2 (Main (onpreprocline m) (startline m) false (lastpos m) (prev m)) (Some (changetotextlexer m RAW_STRING_END d)).
(** 102-107 CHAR_START *)
Definition char_start (m : main) (t r : bytes) : matched :=
  let m := set_startline false m in Matched CHAR_START t r m (Some (changetotextlexer m CHAR_END [])).
(** 109-122 CONSTANTS, after the first digit. (NAME)-star is one name: a name takes every character that could start another one, and the
    text then does not begin with a letter, so that no string starts (126-137). *)
Definition constants (t s : bytes) : bool * bytes * bytes :=
  let (t, s) := many (fun c => digit c || (c =? 95)) t s in
  let (t, s) := many (fun c => (c =? 46) || digit c) t s in
  let (t, s) := match s with
                | 101 :: r => let (t, r) := many (fun c => (c =? 43) || (c =? 45)) (t ++ [101]) r in many digit t r
                | _ => (t, s)
                end in
  let (t2, s2) := many (is 105) t s in
  let (t3, s3) := match s2 with c :: _ => if name_start c then many name_char t2 s2 else (t2, s2) | [] => (t2, s2) end in
  (Nat.ltb (length t) (length t2), t3, s3).
(** 124-138 NAME, with its test for literals *)
Definition one_of (l : list string) (t : bytes) : bool := existsb (fun x => beqb (txt x) t) l.
Definition name (lang : N) (lits : bytes -> option tk) (m : main) (c : N) (r : bytes) : matched :=
  let m := set_startline false m in
  let (t, r1) := many name_char [c] r in
  let res := match r1 with
             | 34 :: r2 =>
                 if one_of ["L"; "U"; "u"; "u8"]%string t then string_start m (t ++ [34]) r2
                 else if inLanguage lang CXX && one_of ["R"; "u8R"; "LR"; "UR"; "uR"]%string t then raw_string_start m (t ++ [34]) r2
                 else Matched NAME t r1 m None
             | _ => Matched NAME t r1 m None
             end in
  Matched (match lits (m_text res) with Some k => k | None => m_type res end) (m_text res) (m_rest res) (m_main res) (m_push res).
(** 140-180 LINE_COMMENT_START: any token that begins with a slash *)
Definition comment_start (lang : N) (lits : bytes -> option tk) (m : main) (r : bytes) : matched :=
  let '(k, e, t, r) :=
    match r with
    | 47 :: r1 =>
        match r1 with
        | c :: r2 => if (c =? 47) || (c =? 33) then (LINE_DOXYGEN_COMMENT_START, Some LINE_DOXYGEN_COMMENT_END, [47; 47; c], r2)
                     else (LINE_COMMENT_START, Some LINE_COMMENT_END, [47; 47], r1)
        | [] => (LINE_COMMENT_START, Some LINE_COMMENT_END, [47; 47], r1)
        end
    | 42 :: r1 =>
        match r1 with
        | c :: r2 =>
            if inLanguage lang JAVA && (c =? 42) then
              match r2 with
              | 47 :: r3 => (WHOLE_COMMENT, None, [47; 42; c; 47], r3)
              | _ => (JAVADOC_COMMENT_START, Some JAVADOC_COMMENT_END, [47; 42; c], r2)
              end
            else if (inLanguage lang CXX || inLanguage lang C || inLanguage lang CSHARP) && ((c =? 42) || (c =? 33)) then
              match r2 with
              | 47 :: r3 => (WHOLE_COMMENT, None, [47; 42; c; 47], r3)
              | _ => (DOXYGEN_COMMENT_START, Some DOXYGEN_COMMENT_END, [47; 42; c], r2)
              end
            else (BLOCK_COMMENT_START, Some BLOCK_COMMENT_END, [47; 42], r1)
        | [] => (BLOCK_COMMENT_START, Some BLOCK_COMMENT_END, [47; 42], r1)
        end
    | 61 :: r1 => (LINE_COMMENT_START, None, [47; 61], r1)
    | _ => (LINE_COMMENT_START, None, [47], r)
    end in
  Matched (match lits t with Some k => k | None => k end) t r
    (match e with Some _ => Main false true (atstring m) (lastpos m) (prev m) | None => m end)
    (match e with Some e => Some (changetotextlexer m e []) | None => None end).

(** OperatorLexer.g:101-182 OPERATORS up to its last action and the test for literals. [col]: the column of the first character [c] *)
Definition operator (lang col : N) (m : main) (c : N) (r : bytes) : option matched :=
  let done := fun x : bytes * bytes => Some (Matched OPERATORS (fst x) (snd x) m None) in
  let t := [c] in
  match c with
  | 35 => Some (Matched (if startline m then PREPROC else OPERATORS) t r
                 (if startline m then Main true (startline m) (atstring m) (lastpos m) (prev m) else m) None)
  | 43 => done (opt (fun x => (x =? 43) || (x =? 61)) t r)
  | 45 => done (match r with
                | 62 :: r1 => opt (is 42) [45; 62] r1
                | _ => opt (fun x => (x =? 45) || (x =? 61)) t r
                end)
  | 42 | 37 | 94 | 33 => done (opt (is 61) t r)
  | 124 => let (t, r) := opt (is 124) t r in done (opt (is 61) t r)
  | 96 | 44 | 59 | 40 | 41 | 91 | 93 | 123 | 125 | 126 => done (t, r)
  | 58 => done (opt (is 58) t r)
  | 61 => done (opt (fun x => (x =? 61) ||
                  ((x =? 62) && (inLanguage lang CSHARP && (negb (lastpos m =? col) || (prev m =? 41) || (prev m =? 35))))) t r)
  | 38 => let (t, r) := opt (is 38) t r in done (opt (is 61) t r)
  | 62 => let (t, r) := match r with 62 :: 61 :: r1 => ([62; 62; 61], r1) | _ => (t, r) end in done (opt (is 61) t r)
  | 60 => done (match r with
                | 60 :: r1 => opt (fun x => (x =? 61) || ((x =? 60) && (inLanguage lang CXX || inLanguage lang C))) [60; 60] r1
                | _ => opt (is 61) t r
                end)
  | 64 =>
      let objc := inLanguage lang OBJECTIVE_C in
      let both := inLanguage lang CSHARP || objc in
      match r with
      | x :: r1 =>
          if objc && ((x =? 40) || (x =? 91) || (x =? 123)) then done ([64; x], r1)
          else if both && name_start x then
            let (t, r2) := many name_char [64; x] r1 in Some (Matched NAME t r2 (set_startline false m) None)
          else if objc && digit x then
            let '(_, t, r2) := constants [64; x] r1 in Some (Matched CONSTANTS t r2 (set_startline false m) None)
          else if both && (x =? 39) then Some (char_start m [64; 39] r1)
          else if both && (x =? 34) then
            Some (string_start (Main (onpreprocline m) (startline m) true (lastpos m) (prev m)) [64; 34] r1)
          else done (t, r)
      | [] => done (t, r)
      end
  | 63 => done (many (is 63) t r)
  | 46 => match r with
          | x :: r1 =>
              if inLanguage lang C_FAMILY && (x =? 42) then done ([46; 42], r1)
              else if x =? 46 then done (opt (is 46) [46; 46] r1)
              else if digit x then let '(_, t, r2) := constants [46; x] r1 in Some (Matched CONSTANTS t r2 (set_startline false m) None)
              else done (t, r)
          | [] => done (t, r)
          end
  | 92 => let (t, r) := many (is 10) t r in
          if Nat.ltb 1 (length t) then Some (Matched EOL_BACKSLASH t r (Main false (startline m) (atstring m) (lastpos m) (prev m)) None) else done (t, r)
  | _ => None
  end.

(** ** Positions (antlr's CharScanner: consume, tab, newline) *)
Record place := Place { line : N; col : N }.
(** [None]: a division by zero *)
Definition step (tabsize : N) (p : place) (c : N) : option place :=
  if c =? 10 then Some (Place (line p + 1) 1)
  else if c =? 9 then if tabsize =? 0 then None else Some (Place (line p) (((col p - 1) / tabsize + 1) * tabsize + 1))
  else Some (Place (line p) (col p + 1)).
Fixpoint steps (tabsize : N) (p : place) (s : bytes) : option place :=
  match s with [] => Some p | c :: r => match step tabsize p c with Some q => steps tabsize q r | None => None end end.

(** the main lexer at a character: TextLexer.g:62-222, the first characters of its rules being different; [None]: no rule begins with it *)
Definition main_rule (lang : N) (lits : bytes -> option tk) (column : N) (m : main) (c : N) (r : bytes) : option matched :=
  if c =? 34 then Some (string_start m [34] r)
  else if c =? 39 then Some (char_start m [39] r)
  else if digit c then
    let '(i, t, r) := constants [c] r in Some (Matched (if i then COMPLEX_NUMBER else CONSTANTS) t r (set_startline false m) None)
  else if name_start c then Some (name lang lits m c r)
  else if c =? 47 then Some (comment_start lang lits m r)
  else if (c =? 32) || (c =? 9) then let (t, r) := many (fun x => (x =? 32) || (x =? 9)) [c] r in Some (Matched WS t r m None)
  else if c =? 10 then Some (Matched EOL [10] r (Main false true (atstring m) (lastpos m) (prev m)) None)
  else if (c <? 32) && negb (c =? 13) then Some (Matched CONTROL_CHAR [c] r (set_startline true m) None)
  else match operator lang column m c r with
       | Some x => Some (Matched (match lits (m_text x) with Some k => k | None => m_type x end) (m_text x) (m_rest x)
                          (Main (onpreprocline (m_main x)) false (atstring (m_main x)) (lastpos (m_main x)) c) (m_push x))
       | None => None
       end.
(** 182: lastpos = getColumn(), which the caller knows: for the rule OPERATORS, whose last action sets it *)
Definition is_operator (c : N) : bool :=
  negb ((c =? 34) || (c =? 39) || digit c || name_start c || (c =? 47) || (c =? 32) || (c =? 9) || (c <? 32)).
Definition set_lastpos (p : N) (m : main) : main := Main (onpreprocline m) (startline m) (atstring m) p (prev m).

(** ** CommentTextLexer.g:120-256 COMMENT_TEXT *)
(** the highest character in a complement (~), the text lexer having no charVocabulary option *)
Definition TEXT_VOCABULARY : N := 127.
(** 251-256 RSTRING_DELIMITER: at most as long as the one that opened the string *)
Fixpoint closing (n : nat) (d t s : bytes) : bytes * bytes * bytes :=
  match n, s with
  | S n, c :: r => if delimiter_char c && (c <=? TEXT_VOCABULARY) then closing n (d ++ [c]) (t ++ [c]) r else (d, t, s)
  | _, _ => (d, t, s)
  end.
(** one pass of the loop: [p] is prevLA, the character before [c] in this token (0 for none); gives the type the token has now, the text
    and the rest, the character to take for the previous one (prevprevLA), and the text lexer's mode *)
Definition text_pass (x : textual) (p c : N) (t r : bytes) : tk * bytes * bytes * N * mode :=
  let e := t_mode x in
  let line := match e with LINE_COMMENT_END | LINE_DOXYGEN_COMMENT_END => true | _ => false end in
  let literal := match e with STRING_END | RAW_STRING_END | CHAR_END => true | _ => false end in
  let raw := match e with RAW_STRING_END => true | _ => false end in
  let t1 := t ++ [c] in
  let '(k, t1, r, q, e) :=
    if c =? 10 then ((if line || (literal && t_onpreprocline x) then Ends e else COMMENT_TEXT), t1, r, c, e)
    else if (c <? 32) && negb (c =? 9) then (CONTROL_CHAR, t1, r, c, e)
    else if c =? 34 then
      let (t2, r2) := if p =? 92 then (t1, r) else many (is 34) t1 r in
      let count := (length t2 - length t)%nat in
      ((if (t_noescape x && Nat.odd count) || (negb (t_noescape x) && negb (p =? 92) && match e with STRING_END => true | _ => false end)
        then Ends e else COMMENT_TEXT), t2, r2, c, e)
    else if c =? 39 then ((if negb (p =? 92) && match e with CHAR_END => true | _ => false end then Ends e else COMMENT_TEXT), t1, r, c, e)
    else if c =? 41 then
      if raw then
        let '(d, t2, r2) := closing (length (t_delimiter x)) [] t1 r in
        (COMMENT_TEXT, t2, r2, c, if beqb d (t_delimiter x) && match r2 with 34 :: _ => true | _ => false end then STRING_END else e)
      else (COMMENT_TEXT, t1, r, c, e)
    else if c =? 47 then
      ((if (p =? 42) && match e with BLOCK_COMMENT_END | JAVADOC_COMMENT_END | DOXYGEN_COMMENT_END => true | _ => false end then Ends e else COMMENT_TEXT), t1, r, c, e)
    else if c =? 92 then (COMMENT_TEXT, t1, r, (if p =? 92 then 0 else c), e)
    else (COMMENT_TEXT, t1, r, c, e) in
  (* 231-246: about to read a newline, or the end *)
  let raw := match e with RAW_STRING_END => true | _ => false end in
  let literal := match e with STRING_END | RAW_STRING_END | CHAR_END => true | _ => false end in
  let before_end := match r with [] => true | 10 :: _ => negb raw | _ => false end in
  (match k with
   | COMMENT_TEXT => if before_end && ((literal && (t_onpreprocline x || raw)) || line) then Ends e else COMMENT_TEXT
   | _ => k
   end, t1, r, q, e).
(** the loop; a control character other than tab and newline is only taken first. [fuel]: more than the input is long; the text lexer that
    goes on, [None] once popped *)
Fixpoint text_rule (fuel : nat) (x : textual) (first : bool) (p : N) (t s : bytes) : tk * bytes * bytes * option textual :=
  match fuel, s with
  | S fuel, c :: r =>
      if (32 <=? c) || (c =? 9) || (c =? 10) || first then
        let '(k, t, r, q, e) := text_pass x p c t r in
        let x := Textual e (t_onpreprocline x) (t_noescape x) (t_delimiter x) in
        match k with
        | COMMENT_TEXT => text_rule fuel x false q t r
        | Ends _ => (k, t, r, None)
        | _ => (k, t, r, Some x)
        end
      else (COMMENT_TEXT, t, s, Some x)
  | _, _ => (COMMENT_TEXT, t, s, Some x)
  end.

(** ** The token stream (srcml_translator.cpp:123-143) *)
Record tok := Tok { k_type : tk; k_text : bytes; k_line : N; k_col : N }.
Inductive ending := AtEnd | NoRule (rest : bytes) | DivisionByZero | NoFuel.
(** the settings: language, macros and tab stop (130-132: setTabsize only for the main lexer; CharScanner's own is 8) *)
Record setting := Setting { s_lang : N; s_macros : list (bytes * bytes); s_tabsize : N }.
Definition TEXT_TABSIZE : N := 8.
(** one token at a place; [inl]: the main lexer *)
Definition next (w : setting) (m : main) (x : option textual) (p : place) (s : bytes) : option (tk * bytes * bytes * main * option textual) :=
  match s with
  | [] => None
  | c :: r =>
      match x with
      | None =>
          match main_rule (s_lang w) (literals (s_lang w) (s_macros w)) (col p) m c r with
          | Some a => Some (m_type a, m_text a, m_rest a, m_main a, m_push a)
          | None => None
          end
      | Some x => let '(k, t, r, y) := text_rule (length s) x true 0 [] s in Some (k, t, r, m, y)
      end
  end.
Fixpoint scan (fuel : nat) (w : setting) (m : main) (x : option textual) (p : place) (s : bytes) : list tok * ending :=
  match s with
  | [] => ([], AtEnd)
  | c :: _ =>
      match fuel with
      | O => ([], NoFuel)
      | S fuel =>
          match next w m x p s with
          | None => ([], NoRule s)
          | Some (k, t, r, m2, y) =>
              match steps (match x with None => s_tabsize w | Some _ => TEXT_TABSIZE end) p t with
              | None => ([], DivisionByZero)
              | Some q =>
                  let m2 := match x with None => if is_operator c then set_lastpos (col q) m2 else m2 | Some _ => m2 end in
                  let (l, e) := scan fuel w m2 y q r in (Tok k t (line p) (col p) :: l, e)
              end
          end
      end
  end.
Definition tokens (w : setting) (s : bytes) : list tok * ending := scan (length s) w new_main None (Place 1 1) s.

(** ** The types as the parser distinguishes them (Parser_Model.v) *)
Definition parser_type (k : tk) : lex :=
  match k with
  | WS => Lws 0 | EOL_BACKSLASH => Lws 1 | COMMENT_TEXT => Lws 2
  | EOL => Leol | CONTROL_CHAR => Lcontrol | WHOLE_COMMENT => Lwhole
  | BLOCK_COMMENT_START => Lopen Cblock | LINE_COMMENT_START => Lopen Cline | JAVADOC_COMMENT_START => Lopen Cjavadoc
  | DOXYGEN_COMMENT_START => Lopen Cdoxygen | LINE_DOXYGEN_COMMENT_START => Lopen Clinedoxygen
  | Ends BLOCK_COMMENT_END => Lclose Cblock | Ends LINE_COMMENT_END => Lclose Cline | Ends JAVADOC_COMMENT_END => Lclose Cjavadoc
  | Ends DOXYGEN_COMMENT_END => Lclose Cdoxygen | Ends LINE_DOXYGEN_COMMENT_END => Lclose Clinedoxygen
  | PREPROC => Lpreproc | MACRO_NAME => Lmacro | VISUAL_CXX_ASM => Lasm
  | STRING_START => Lsrc 0 | CHAR_START => Lsrc 1 | CONSTANTS => Lsrc 2 | COMPLEX_NUMBER => Lsrc 3 | NAME => Lsrc 4 | OPERATORS => Lsrc 5
  | Ends STRING_END => Lsrc 6 | Ends RAW_STRING_END => Lsrc 7 | Ends CHAR_END => Lsrc 8
  | Kw _ => Lsrc 9
  end.
Definition parser_tokens (l : list tok) : list ltok := map (fun k => LTok (parser_type (k_type k)) (k_text k)) l.
