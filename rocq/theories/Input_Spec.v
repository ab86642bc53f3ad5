(** Vocabulary for C31, C40, C41 and C42. *)
From Verif Require Import Base Text_Model Text_Spec Writer_Model Writer_Spec Input_Model.

(** * C40: the text of --text *)
(** What may stand in it: characters other than a backslash; an escape with a letter; hexadecimal and octal
    escapes with their digits, octal ones also after a zero; "\x" without digits; any other escape. *)
Inductive item := IRun (s : bytes) | INamed (c b : N) | IHex (ds : bytes) | IOct0 (ds : bytes) | IOct (ds : bytes) | IBareX | IOther (c : N).
Definition named : list (N * N) := [(110, 10); (116, 9); (102, 12); (97, 7); (98, 8); (101, 27); (114, 13); (118, 11)]%N.
Definition render_item (i : item) : bytes :=
  match i with
  | IRun s => s | INamed c _ | IOther c => [92%N; c] | IHex ds => [92; 120]%N ++ ds
  | IOct0 ds => [92; 48]%N ++ ds | IOct ds => 92%N :: ds | IBareX => [92; 120]%N
  end.
Definition render (l : list item) : bytes := concat (map render_item l).
(** An escape with fewer than [n] digits is not followed by another digit. *)
Definition complete (p : N -> bool) (n : nat) (ds next : bytes) : Prop :=
  Forall (fun c => p c = true) ds /\ length ds <= n /\ (length ds < n -> match next with c :: _ => p c = false | [] => True end).
(** [next]: the text that follows. *)
Definition item_ok (i : item) (next : bytes) : Prop :=
  match i with
  | IRun s => s <> [] /\ no_byte 92 s /\ no_byte 0 s
  | INamed c b => In (c, b) named
  | IHex ds => ds <> [] /\ complete is_hex 2 ds next
  | IOct0 ds => complete is_oct 3 ds next
  | IOct ds => complete is_oct 3 ds next /\ match ds with c :: _ => c <> 48%N | [] => False end
  | IBareX => match next with c :: _ => is_hex c = false | [] => True end
  | IOther c => c <> 0%N /\ ~ In c (map fst named) /\ c <> 120%N /\ is_oct c = false
  end.
Fixpoint items_ok (l : list item) (tail : bytes) : Prop :=
  match l with [] => True | i :: r => item_ok i (render r ++ tail) /\ items_ok r tail end.
(** Numbers written in a base. *)
Fixpoint positional (base : N) (digit : N -> N) (ds : bytes) : N :=
  match ds with [] => 0%N | c :: r => (digit c * base ^ N.of_nat (length r) + positional base digit r)%N end.
(** What an item stands for: bytes, or the end of a unit (an escape for zero).  Octal values above 255 are
    taken modulo 256. *)
Definition meaning (i : item) : option bytes :=
  match i with
  | IRun s => Some s | INamed _ b => Some [b] | IBareX => Some [92; 120]%N | IOther c => Some [92%N; c]
  | IHex ds => match positional 16 hex_digit ds with 0%N => None | v => Some [(v mod 256)%N] end
  | IOct0 ds | IOct ds => match positional 8 (fun c => c - 48)%N ds with 0%N => None | v => Some [(v mod 256)%N] end
  end.
(** The sources, one for each unit. *)
Fixpoint sources (l : list item) : list bytes :=
  match l with
  | [] => [[]]
  | i :: r => match meaning i, sources r with
              | None, us => [] :: us
              | Some b, u :: us => (b ++ u) :: us
              | Some b, [] => [b]
              end
  end.

(** * C41: file lists *)
(** A buffer as its lines. *)
Definition unlines (ls : list bytes) (rest : bytes) : bytes := concat (map (fun l => l ++ [10%N]) ls) ++ rest.
(** [trimmed l n]: [n] is [l] without the blanks around it. *)
Definition white (c : N) : Prop := In c [32; 10; 13; 9; 12; 11]%N.
Definition trimmed (l n : bytes) : Prop :=
  exists a b, l = a ++ n ++ b /\ Forall white a /\ Forall white b /\
  match n with [] => True | c :: _ => ~ white c /\ ~ white (last n 0%N) end.
(** [named_in ls ns]: the names in the lines, in order; blank lines and comments have none. *)
Inductive named_in : list bytes -> list bytes -> Prop :=
| ni_nil : named_in [] []
| ni_blank l ls ns : trimmed l [] -> named_in ls ns -> named_in (l :: ls) ns
| ni_comment l ls ns n : trimmed l (35%N :: n) -> named_in ls ns -> named_in (l :: ls) ns
| ni_name l ls ns c n : trimmed l (c :: n) -> c <> 35%N -> named_in ls ns -> named_in (l :: ls) ((c :: n) :: ns).

(** What the last line may be when no line end follows it (see the refutation of C41). *)
Definition last_ok (rest : bytes) : Prop := match rest with [c] => white c \/ c = 35%N | _ => True end.

(** * C31, C42: extensions *)
(** The extensions that stand for a container: an archive or a compressed file. *)
Definition container (e : bytes) : Prop := In e archive_extensions \/ In e compression_extensions.
(** [extension_of f e]: [e] is what [f] has from its last dot on, nothing if it has no dot. *)
Definition extension_of (f e : bytes) : Prop :=
  exists base, f = base ++ e /\ (e = [] /\ no_byte 46 f \/ exists n, e = 46%N :: n /\ no_byte 46 n).

(** Hexadecimal digits and their values. *)
Definition hex_values : list (N * N) :=
  combine (txt "0123456789abcdefABCDEF") [0; 1; 2; 3; 4; 5; 6; 7; 8; 9; 10; 11; 12; 13; 14; 15; 10; 11; 12; 13; 14; 15]%N.
