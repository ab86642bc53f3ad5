(** Model of conditional compilation in the parser: src/parser/srcMLParser.g:703-764, 3620-3705, 9085-9270, 9418-9592.
    What is kept: when a directive ends, whether what follows it up to the next directive is left as text.
    Simplified: cpp_ifcount is an int (it does not overflow here); the sizes of the mode stack are given with the events. *)
From Verif Require Import Base Lexer_Model.
Local Open Scope N_scope.

(** 9102-9108 directive_token, with markblockzero (9604-9610: the condition starts with the constant 0) *)
Inductive directive := Dif (zero : bool) | Dif_other (* #ifdef, #ifndef *) | Delse | Delif (zero : bool) | Dendif | Dother.
(** 752-764 *)
Record cppitem := CppItem { statesize : list N; isclosed : bool; skips : bool }.
Definition new_item (size : N) : cppitem := CppItem [size] false false.
(** 703-705, 764: cpp_zeromode, cpp_skipelse, cpp_ifcount, cppmode with its top first *)
Record pp := PP { zeromode : bool; skipelse : bool; ifcount : Z; cppmode : list cppitem }.
Definition start : pp := PP false false 0%Z [].
(** SRCML_OPTION_CPP_TEXT_ELSE, SRCML_OPTION_CPP_MARKUP_IF0 *)
Record coptions := COptions { text_else : bool; markup_if0 : bool }.
Definition push_back (it : cppitem) (size : N) : cppitem := CppItem (statesize it ++ [size]) (isclosed it) (skips it).
(** 9577-9591 cppmode_cleanup; all callers have a top *)
Definition cleanup (l : list cppitem) : list cppitem :=
  match l with
  | [] => []
  | it :: r =>
      let equal := match statesize it with [] => true | s :: _ => forallb (N.eqb s) (statesize it) end in
      if equal || Nat.eqb (length (statesize it)) 2 then r else l
  end.
(** 9418-9571 eol_post: the state, and whether the tokens up to the next directive are consumed here, as text *)
Definition eol_post (o : coptions) (guessing : bool) (size : N) (d : directive) (s : pp) : pp * bool :=
  let s1 :=
    match d with
    | Dif _ | Dif_other =>
        let zero := match d with Dif z => z | _ => false end in
        let (z, c) := if negb (zeromode s) && zero then (true, 0%Z) else (zeromode s, ifcount s) in
        PP z (skipelse s) (c + 1)%Z (if negb (text_else o) && negb guessing then new_item size :: cppmode s else cppmode s)
    | Delse | Delif _ =>
        let '(z, e, c) := if zeromode s && (ifcount s =? 1)%Z then (false, skipelse s, ifcount s)
                          else if negb (zeromode s) then (false, true, 1%Z) else (zeromode s, skipelse s, ifcount s) in
        PP z e c
           (if text_else o && negb guessing then
              match (match cppmode s with [] => [new_item size] | l => l end) with
              | [] => []
              | it :: r => let it := push_back it size in
                           (if negb z && (size <? hd 0 (statesize it)) then CppItem (statesize it) (isclosed it) true else it) :: r
              end
            else cppmode s)
    | Dendif =>
        let c := (ifcount s - 1)%Z in
        PP (zeromode s && negb (c =? 0)%Z) (skipelse s && negb (c =? 0)%Z) c
           (if text_else o && negb guessing then
              match cppmode s with
              | [] => []
              | it :: r => cleanup (CppItem (statesize it ++ [size]) true (skips it) :: r)
              end
            else cppmode s)
    | Dother => s
    end in
  (s1, (negb (markup_if0 o) && zeromode s1) || (text_else o && skipelse s1) || (text_else o && guessing && skipelse s1) ||
       match cppmode s1 with it :: _ => negb (isclosed it) && skips it | [] => false end).
(** 3627-3630, 3695-3703 else_handling: [before] is the number of sizes of the top before *)
Definition else_handled (before : nat) (size : N) (s : pp) : pp :=
  match cppmode s with
  | [] => s
  | it :: r => if Nat.eqb before (length (statesize it)) then s
               else let it := CppItem (removelast (statesize it) ++ [size]) (isclosed it) (skips it) in
                    PP (zeromode s) (skipelse s) (ifcount s) (if isclosed it then cleanup (it :: r) else it :: r)
  end.
(** 9600-9608 cpp_condition: markblockzero, from the tokens after #if. Simplified: only white space is skipped before the first. *)
Fixpoint zero_condition (l : list tok) : bool :=
  match l with
  | [] => false
  | t :: l => match k_type t with
              | WS => zero_condition l
              | CONSTANTS => match k_text t with [48] => true | _ => false end
              | _ => false
              end
  end.
