(** What the tokens of a source are: its characters in order, comments and literals with their extent, and their positions. *)
From Verif Require Import Base Lexer_Model.
Local Open Scope N_scope.

(** ** Text *)
Definition text_of (l : list tok) : bytes := concat (map k_text l).
(** characters XML text cannot have *)
Definition control (c : N) : Prop := c < 32 /\ c <> 9 /\ c <> 10.
Definition occurs (x s : bytes) : Prop := exists a b, s = a ++ x ++ b.

(** ** Comments and literals, character by character *)
Inductive region := Code | Line | Block | Str | StrEnd | Chr.
(** what each character belongs to, from a state on. A comment runs from // to before the end of the line, or from /* to the next star and
    slash; a literal from a quote to the next such quote that no backslash precedes, the backslash not being itself escaped. [StrEnd]: the
    quote that ends a string. *)
Fixpoint regions (st : region) (s : bytes) : list region :=
  match s with
  | [] => []
  | c :: r =>
      match st with
      | Code | StrEnd =>
          if c =? 34 then Str :: regions Str r
          else if c =? 39 then Chr :: regions Chr r
          else match r with
               | d :: r2 => if (c =? 47) && (d =? 47) then Line :: Line :: regions Line r2
                            else if (c =? 47) && (d =? 42) then Block :: Block :: regions Block r2
                            else Code :: regions Code r
               | [] => [Code]
               end
      | Line => if c =? 10 then Code :: regions Code r else Line :: regions Line r
      | Block => match r with
                 | d :: r2 => if (c =? 42) && (d =? 47) then Block :: Block :: regions Code r2 else Block :: regions Block r
                 | [] => [Block]
                 end
      | Str => if c =? 92 then match r with _ :: r2 => Str :: Str :: regions Str r2 | [] => [Str] end
               else if c =? 34 then StrEnd :: regions Code r else Str :: regions Str r
      | Chr => if c =? 92 then match r with _ :: r2 => Chr :: Chr :: regions Chr r2 | [] => [Chr] end
               else if c =? 39 then Chr :: regions Code r else Chr :: regions Chr r
      end
  end.
Definition plain (x : region) : region := match x with StrEnd => Str | _ => x end.
(** what each character of the tokens belongs to: a comment or literal goes from its start to its end; before the quote of a start there may be
    a prefix; the newline alone that ends a line comment is not part of it *)
Fixpoint marked (st : region) (l : list tok) : list region :=
  match l with
  | [] => []
  | k :: l =>
      let n := length (k_text k) in
      match k_type k with
      | LINE_COMMENT_START | LINE_DOXYGEN_COMMENT_START => repeat Line n ++ marked Line l
      | BLOCK_COMMENT_START | JAVADOC_COMMENT_START | DOXYGEN_COMMENT_START => repeat Block n ++ marked Block l
      | WHOLE_COMMENT => repeat Block n ++ marked st l
      | STRING_START => repeat Code (n - 1) ++ Str :: marked Str l
      | CHAR_START => repeat Code (n - 1) ++ Chr :: marked Chr l
      | COMMENT_TEXT | CONTROL_CHAR => repeat st n ++ marked st l
      | Ends _ => (match k_text k with [10] => [Code] | _ => repeat st n end) ++ marked Code l
      | _ => repeat Code n ++ marked st l
      end
  end.
(** [s] has the labels [ls]: a newline in a literal; a string, and at once another quote *)
Definition broken (s : bytes) (ls : list region) : Prop := exists i, nth_error s i = Some 10 /\ (nth_error ls i = Some Str \/ nth_error ls i = Some Chr).
Definition doubled (s : bytes) (ls : list region) : Prop := exists i, nth_error ls i = Some StrEnd /\ nth_error s (S i) = Some 34.
(** raw strings, verbatim strings, and the text [/*!/] *)
Definition unusual (s : bytes) : Prop := occurs [82; 34] s \/ occurs [64; 34] s \/ occurs [47; 42; 33; 47] s.
(** macros whose names have no character of comments, literals or directives *)
Definition simple_macros (ms : list (bytes * bytes)) : Prop := Forall (fun m => ~ In 47 (fst m) /\ ~ In 34 (fst m) /\ ~ In 39 (fst m) /\ ~ In 35 (fst m)) ms.
(** the languages *)
Definition languages : list N := [1; 2; 4; 8; 17].

(** the start of a comment, and what is inside *)
Definition starts_block (t : tok) : Prop := k_type t = BLOCK_COMMENT_START \/ k_type t = JAVADOC_COMMENT_START \/ k_type t = DOXYGEN_COMMENT_START.
Definition starts_line (t : tok) : Prop := k_type t = LINE_COMMENT_START \/ k_type t = LINE_DOXYGEN_COMMENT_START.
Definition inner (t : tok) : Prop := k_type t = COMMENT_TEXT \/ k_type t = CONTROL_CHAR.
Definition finishes (t : tok) : Prop := exists e, k_type t = Ends e.

(** ** Positions *)
(** the line of what follows a text, and its column with tab stops every [t] columns *)
Definition line_after (s : bytes) : N := N.of_nat (S (count_occ N.eq_dec s 10)).
Fixpoint column_from (t column : N) (s : bytes) : N :=
  match s with
  | [] => column
  | c :: r => column_from t (if c =? 10 then 1 else if c =? 9 then column + (t - (column - 1) mod t) else column + 1) r
  end.
Definition column_after (t : N) (s : bytes) : N := column_from t 1 s.

(** ** Macros *)
(** the types under which a macro is registered *)
Definition macro_types : list bytes := [txt "src:macro"; txt "src:name"; txt "src:type"; txt "src:case"; txt "src:label"; txt "src:specifier"].
