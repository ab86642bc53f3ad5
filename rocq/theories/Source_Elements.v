(** The element table of the output (srcMLOutputElements.hpp:29-270) and what is written for each call of the output.
    Copied from the file by a script, in order; of the two entries for SMARKER an initialiser list keeps the first. Left out: the unit,
    comments, errors and control characters, which have their own constructors below, and SONAME, whose name is empty (Enop). *)
From Verif Require Import Base Text_Model Api_Model Writer_Model Parser_Model.
Local Open Scope N_scope.

(** number of the namespace, name, attributes. The attribute of SMARKER has no value in the table, so it takes the text of the tag token,
    which is empty (srcMLOutput.cpp:584-591). *)
Definition element_table : list (nat * bytes * list (bytes * bytes)) :=
 [
  (0%nat, txt "literal", [(txt "type", txt "string")]);
  (0%nat, txt "literal", [(txt "type", txt "char")]);
  (0%nat, txt "literal", [(txt "type", txt "number")]);
  (0%nat, txt "literal", [(txt "type", txt "boolean")]);
  (0%nat, txt "literal", [(txt "type", txt "null")]);
  (0%nat, txt "literal", [(txt "type", txt "complex")]);
  (0%nat, txt "operator", []);
  (0%nat, txt "modifier", []);
  (0%nat, txt "name", []);
  (0%nat, txt "name", []);
  (0%nat, txt "type", []);
  (0%nat, txt "type", [(txt "ref", txt "prev")]);
  (0%nat, txt "condition", []);
  (0%nat, txt "block", []);
  (0%nat, txt "block_content", []);
  (0%nat, txt "block", [(txt "type", txt "pseudo")]);
  (0%nat, txt "index", []);
  (0%nat, txt "decltype", []);
  (0%nat, txt "typename", []);
  (0%nat, txt "atomic", []);
  (0%nat, txt "assert", [(txt "type", txt "static")]);
  (0%nat, txt "generic_selection", []);
  (0%nat, txt "selector", []);
  (0%nat, txt "association_list", []);
  (0%nat, txt "association", []);
  (0%nat, txt "expr_stmt", []);
  (0%nat, txt "expr", []);
  (0%nat, txt "decl_stmt", []);
  (0%nat, txt "decl", []);
  (0%nat, txt "init", []);
  (0%nat, txt "range", []);
  (0%nat, txt "break", []);
  (0%nat, txt "continue", []);
  (0%nat, txt "goto", []);
  (0%nat, txt "label", []);
  (0%nat, txt "typedef", []);
  (0%nat, txt "asm", []);
  (0%nat, txt "macro", []);
  (0%nat, txt "enum", []);
  (0%nat, txt "enum_decl", []);
  (0%nat, txt "if_stmt", []);
  (0%nat, txt "if", []);
  (0%nat, txt "ternary", []);
  (0%nat, txt "then", []);
  (0%nat, txt "else", []);
  (0%nat, txt "if", [(txt "type", txt "elseif")]);
  (0%nat, txt "while", []);
  (0%nat, txt "typeof", []);
  (0%nat, txt "do", []);
  (0%nat, txt "switch", []);
  (0%nat, txt "case", []);
  (0%nat, txt "default", []);
  (0%nat, txt "for", []);
  (0%nat, txt "foreach", []);
  (0%nat, txt "control", []);
  (0%nat, txt "init", []);
  (0%nat, txt "condition", []);
  (0%nat, txt "incr", []);
  (0%nat, txt "init", []);
  (0%nat, txt "function", []);
  (0%nat, txt "function_decl", []);
  (0%nat, txt "lambda", []);
  (0%nat, txt "specifier", []);
  (0%nat, txt "return", []);
  (0%nat, txt "call", []);
  (0%nat, txt "sizeof", []);
  (0%nat, txt "parameter_list", []);
  (0%nat, txt "parameter", []);
  (0%nat, txt "krparameter_list", []);
  (0%nat, txt "krparameter", []);
  (0%nat, txt "argument_list", []);
  (0%nat, txt "argument", []);
  (0%nat, txt "capture", []);
  (0%nat, txt "parameter_list", [(txt "type", txt "pseudo")]);
  (0%nat, txt "parameter_list", [(txt "type", txt "indexer")]);
  (0%nat, txt "struct", []);
  (0%nat, txt "struct_decl", []);
  (0%nat, txt "union", []);
  (0%nat, txt "union_decl", []);
  (0%nat, txt "class", []);
  (0%nat, txt "class_decl", []);
  (0%nat, txt "public", []);
  (0%nat, txt "public", [(txt "type", txt "default")]);
  (0%nat, txt "private", []);
  (0%nat, txt "private", [(txt "type", txt "default")]);
  (0%nat, txt "protected", []);
  (0%nat, txt "protected", [(txt "type", txt "default")]);
  (0%nat, txt "signals", []);
  (0%nat, txt "forever", []);
  (0%nat, txt "emit", []);
  (0%nat, txt "member_init_list", []);
  (0%nat, txt "call", []);
  (0%nat, txt "constructor", []);
  (0%nat, txt "constructor_decl", []);
  (0%nat, txt "destructor", []);
  (0%nat, txt "destructor_decl", []);
  (0%nat, txt "super_list", []);
  (0%nat, txt "super", []);
  (0%nat, txt "friend", []);
  (0%nat, txt "specifier", []);
  (0%nat, txt "extern", []);
  (0%nat, txt "namespace", []);
  (0%nat, txt "using", []);
  (0%nat, txt "try", []);
  (0%nat, txt "catch", []);
  (0%nat, txt "finally", []);
  (0%nat, txt "throw", []);
  (0%nat, txt "throw", []);
  (0%nat, txt "throws", []);
  (0%nat, txt "noexcept", []);
  (0%nat, txt "template", []);
  (0%nat, txt "argument", []);
  (0%nat, txt "argument_list", [(txt "type", txt "generic")]);
  (0%nat, txt "parameter", []);
  (0%nat, txt "parameter_list", []);
  (0%nat, txt "parameter", []);
  (0%nat, txt "parameter_list", [(txt "type", txt "generic")]);
  (1%nat, txt "directive", []);
  (1%nat, txt "file", []);
  (1%nat, txt "number", []);
  (1%nat, txt "literal", []);
  (1%nat, txt "include", []);
  (1%nat, txt "define", []);
  (1%nat, txt "undef", []);
  (1%nat, txt "line", []);
  (1%nat, txt "if", []);
  (1%nat, txt "ifdef", []);
  (1%nat, txt "ifndef", []);
  (1%nat, txt "else", []);
  (1%nat, txt "elif", []);
  (1%nat, txt "endif", []);
  (1%nat, txt "then", []);
  (1%nat, txt "pragma", []);
  (1%nat, txt "error", []);
  (1%nat, txt "warning", []);
  (1%nat, txt "macro", []);
  (1%nat, txt "value", []);
  (1%nat, txt "empty", []);
  (0%nat, txt "marker", [(txt "item", [])]);
  (1%nat, txt "region", []);
  (1%nat, txt "endregion", []);
  (1%nat, txt "import", []);
  (0%nat, txt "lock", []);
  (0%nat, txt "fixed", []);
  (0%nat, txt "checked", []);
  (0%nat, txt "unchecked", []);
  (0%nat, txt "unsafe", []);
  (0%nat, txt "using_stmt", []);
  (0%nat, txt "delegate", []);
  (0%nat, txt "event", []);
  (0%nat, txt "constraint", []);
  (0%nat, txt "extends", []);
  (0%nat, txt "implements", []);
  (0%nat, txt "import", []);
  (0%nat, txt "package", []);
  (0%nat, txt "assert", []);
  (0%nat, txt "synchronized", []);
  (0%nat, txt "interface", []);
  (0%nat, txt "interface_decl", []);
  (0%nat, txt "annotation_defn", []);
  (0%nat, txt "static", []);
  (0%nat, txt "attribute", []);
  (0%nat, txt "target", []);
  (0%nat, txt "linq", []);
  (0%nat, txt "from", []);
  (0%nat, txt "select", []);
  (0%nat, txt "where", []);
  (0%nat, txt "let", []);
  (0%nat, txt "orderby", []);
  (0%nat, txt "group", []);
  (0%nat, txt "join", []);
  (0%nat, txt "in", []);
  (0%nat, txt "on", []);
  (0%nat, txt "equals", []);
  (0%nat, txt "by", []);
  (0%nat, txt "into", []);
  (0%nat, txt "annotation", []);
  (0%nat, txt "alignas", []);
  (0%nat, txt "alignof", []);
  (0%nat, txt "typeid", []);
  (0%nat, txt "sizeof", [(txt "type", txt "pack")]);
  (0%nat, txt "enum", [(txt "type", txt "class")]);
  (0%nat, txt "enum_decl", [(txt "type", txt "class")]);
  (0%nat, txt "function", [(txt "type", txt "operator")]);
  (0%nat, txt "function_decl", [(txt "type", txt "operator")]);
  (0%nat, txt "ref_qualifier", []);
  (0%nat, txt "receiver", []);
  (0%nat, txt "message", []);
  (0%nat, txt "selector", []);
  (0%nat, txt "protocol_list", []);
  (0%nat, txt "category", []);
  (0%nat, txt "protocol", []);
  (0%nat, txt "required", [(txt "type", txt "default")]);
  (0%nat, txt "required", []);
  (0%nat, txt "optional", []);
  (0%nat, txt "property", []);
  (0%nat, txt "attribute_list", []);
  (0%nat, txt "synthesize", []);
  (0%nat, txt "dynamic", []);
  (0%nat, txt "encode", []);
  (0%nat, txt "autoreleasepool", []);
  (0%nat, txt "compatibility_alias", []);
  (0%nat, txt "literal", [(txt "type", txt "nil")]);
  (0%nat, txt "protocol_decl", []);
  (0%nat, txt "class", [(txt "type", txt "@interface")]);
  (0%nat, txt "class", [(txt "type", txt "@implementation")]);
  (0%nat, txt "cast", []);
  (0%nat, txt "cast", [(txt "type", txt "const")]);
  (0%nat, txt "cast", [(txt "type", txt "dynamic")]);
  (0%nat, txt "cast", [(txt "type", txt "reinterpret")]);
  (0%nat, txt "cast", [(txt "type", txt "static")]);
  (0%nat, txt "position", []);
  (0%nat, txt "argument_list", [(txt "type", txt "cuda")]);
  (4%nat, txt "directive", []);
  (4%nat, txt "name", []);
  (4%nat, txt "clause", []);
  (4%nat, txt "argument_list", []);
  (4%nat, txt "argument", []);
  (4%nat, txt "expr", []);
  (0%nat, txt "empty_stmt", [])
 ].
(** srcMLOutputElements.hpp:31-35 *)
Definition comment_element (c : ckind) : nat * bytes * list (bytes * bytes) :=
  (0%nat, txt "comment",
   match c with
   | Cblock => [(txt "type", txt "block")]
   | Cline => [(txt "type", txt "line")]
   | Clinedoxygen => [(txt "type", txt "line"); (txt "format", txt "doxygen")]
   | Cjavadoc => [(txt "type", txt "block"); (txt "format", txt "javadoc")]
   | Cdoxygen => [(txt "type", txt "block"); (txt "format", txt "doxygen")]
   end).
(** errors: srcMLOutputElements.hpp:218-219 *)
Definition elements_of (e : etype) : list (nat * bytes * list (bytes * bytes)) :=
  match e with
  | Ename n => match nth_error element_table n with Some x => [x] | None => [] end
  | Ecomment c => [comment_element c]
  | Eerror => [(0%nat, txt "parse", []); (0%nat, txt "mode", [])]
  | Eunit | Enop => []
  end.
(** srcMLOutput.cpp:499-528 addPosition: nothing, or two attributes named with the prefix of the position namespace; the values are numbers
    (C07) with a colon, or with INVALID_POS around the line *)
Definition positions (pos : bytes) (pl : list (bytes * bytes)) : Prop :=
  let name n := match pos with [] => n | _ => pos ++ [58] ++ n end in
  pl = [] \/ exists a b, pl = [(name (txt "start"), a); (name (txt "end"), b)] /\
    Forall (fun c => In c (txt "0123456789:INVALID_POS()")) a /\ Forall (fun c => In c (txt "0123456789:INVALID_POS()")) b.
(** srcMLOutput.cpp:531-599: the tokens of the output model for the calls on the XML writer. An element whose name is empty is not written,
    the text of a cancelled tag is empty. *)
Inductive printed (pos : bytes) : list ev -> list token -> Prop :=
| pr_nil : printed pos [] []
| pr_open e i n al pl l k : In (i, n, al) (elements_of e) -> positions pos pl -> printed pos l k -> printed pos (Open e :: l) (TStart i n al (attrs pl) :: k)
| pr_close l k : printed pos l k -> printed pos (Close :: l) (TEnd :: k)
| pr_text x l k : printed pos l k -> printed pos (Txt x :: l) (TText x :: k)
| pr_none l k : printed pos l k -> printed pos (Txt [] :: l) k
| pr_escape c x l k : printed pos l k ->
    printed pos (Esc (c :: x) :: l) (TEmpty 0 (txt "escape") [(txt "char", escape_attr (char_to_int true c))] :: k).
