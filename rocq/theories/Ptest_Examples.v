(** The parser test: cases (C64). *)
From Coq Require Import Sorting.Sorted Sorting.Permutation.
From Verif Require Import Base Text_Model Ptest_Model Ptest_Spec Ptest_Proofs Ptest_Proofs2 Ptest_Proofs3 Ptest_Proofs4.
Local Open Scope N_scope.

Definition unit_of (url : option string) (file : string) (language : option string) (xml again : bytes) : request :=
  Request (option_map txt url) (txt file) (option_map txt language) xml again.
(** three units of two files; one fails *)
Definition plain_units : list (list request) :=
  [[unit_of (Some "u"%string) "a.xml" (Some "C"%string) (txt "<x/>") (txt "<x/>"); unit_of None "a.xml" (Some "C"%string) (txt "<x/>") (txt "<y/>")];
   [unit_of None "b.xml" (Some "Java"%string) (txt "<z/>") (txt "<z/>")]].
Lemma plain_files : files None plain_units.
Proof. unfold plain_units. repeat (constructor; try discriminate). Qed.
Lemma plain_uniform : uniform (concat plain_units).
Proof. cbn [concat plain_units app]. repeat (constructor; try discriminate; try reflexivity). Qed.
(** a report: what precedes the counts, and the counts *)
Definition reported (color : bool) (percent : nat -> nat -> bytes) (qs : list request) (f n : nat) (t : table) : Prop :=
  exists body, parser_test color percent qs = Ok (body ++ counts_text color percent f n t).
Lemma reported_by : forall color percent qs s o, entries color qs nothing = Ok (s, o) -> total s <> 0%nat -> reported color percent qs (failed s) (total s) (table_of s).
Proof. intros color percent qs s o E T. unfold reported, parser_test. rewrite E. cbn [obind]. rewrite (report_text color percent s T). eexists. rewrite !app_assoc. reflexivity. Qed.
Lemma plain_report : forall percent, reported false percent (concat plain_units) 1 3 [(txt "C", 1%nat, 2%nat); (txt "Java", 0%nat, 1%nat)].
Proof. intros percent. eapply (reported_by false percent (concat plain_units) _ _ ltac:(vm_compute; reflexivity)). discriminate. Qed.

(** ** Languages *)
(** the second unit is counted as C *)
Definition mixed : list request := [unit_of None "a.xml" (Some "C"%string) (txt "<x/>") (txt "<x/>"); unit_of None "a.xml" (Some "Java"%string) (txt "<y/>") (txt "<y/>")].
Lemma mixed_counts : forall percent, reported false percent mixed 0 2 [(txt "C", 0%nat, 2%nat)].
Proof. intros percent. eapply (reported_by false percent mixed _ _ ltac:(vm_compute; reflexivity)). discriminate. Qed.
(** a unit without language: it is not counted, and the next is counted as C, the language of another file *)
Definition unnamed : list request :=
  [unit_of None "a.xml" (Some "C"%string) (txt "<x/>") (txt "<x/>"); unit_of None "b.xml" None (txt "<y/>") (txt "<y/>"); unit_of None "b.xml" (Some "Java"%string) (txt "<y/>") (txt "<y/>")].
Lemma unnamed_counts : forall percent, reported false percent unnamed 0 2 [(txt "C", 0%nat, 2%nat)].
Proof. intros percent. eapply (reported_by false percent unnamed _ _ ltac:(vm_compute; reflexivity)). discriminate. Qed.
(** ** The URL of another archive *)
Definition old_url : list (list request) :=
  [[unit_of (Some "first"%string) "a.xml" (Some "C"%string) (txt "<x/>") (txt "<x/>")]; [unit_of None "b.xml" (Some "C"%string) (txt "<x/>") (txt "<x/>")]].
Lemma old_url_shown : files None old_url /\ forall percent, exists rest, parser_test false percent (concat old_url) = Ok (header (txt "C") (txt "first") ++ txt "1 " ++ header (txt "C") (txt "first") ++ txt "1 " ++ rest).
Proof.
  split; [unfold old_url; repeat (constructor; try discriminate)|]. intros percent. unfold parser_test. destruct (entries false (concat old_url) nothing) as [[s o]|] eqn:E; [|vm_compute in E; discriminate E]. cbn [obind].
  assert (O : o = header (txt "C") (txt "first") ++ txt "1 " ++ header (txt "C") (txt "first") ++ txt "1 ") by (vm_compute in E; injection E as _ <-; vm_compute; reflexivity).
  exists (report false percent s). rewrite O, <- !app_assoc. reflexivity.
Qed.
(** ** A line that is longer after parsing again *)
Definition six : bytes := txt "1" ++ [10] ++ txt "2" ++ [10] ++ txt "3" ++ [10] ++ txt "4" ++ [10] ++ txt "5" ++ [10] ++ txt "6" ++ [10].
Definition shorter : bytes := six ++ txt "ab" ++ [10] ++ txt "cd" ++ [10] ++ txt "e".
Definition longer : bytes := six ++ txt "abX" ++ [10] ++ txt "c" ++ [10] ++ txt "e".
Lemma between : forall p s q : bytes, firstn (length s) (skipn (length p) (p ++ s ++ q)) = s.
Proof. intros p s q. rewrite skipn_app, skipn_all, Nat.sub_diag. cbn [skipn app]. rewrite firstn_app, firstn_all, Nat.sub_diag, firstn_O, app_nil_r. reflexivity. Qed.
Lemma agree_app : forall p x y, (length p <= agree (p ++ x) (p ++ y))%nat.
Proof. induction p as [|c p IH]; intros x y; cbn [app agree length]; [lia|]. rewrite N.eqb_refl. specialize (IH x y). lia. Qed.
Lemma line_end : shown shorter longer = Ok (txt "cd", [10] ++ txt "c") /\ ~ exists p q, shorter = p ++ txt "cd" ++ q /\ longer = p ++ ([10] ++ txt "c") ++ q.
Proof.
  split; [vm_compute; reflexivity|]. intros (p & q & A & B). pose proof (agree_app p (txt "cd" ++ q) (([10] ++ txt "c") ++ q)) as L. rewrite <- A, <- B in L. change (agree shorter longer) with 14%nat in L.
  pose proof (between p (txt "cd") q) as C. rewrite <- A in C. remember (length p) as k eqn:K. clear - L C. do 15 (destruct k as [|k]; [vm_compute in C; discriminate C|]). lia.
Qed.
(** ** Lines left out or added *)
Definition seven : bytes := six ++ txt "7" ++ [10] ++ txt "8" ++ [10].
Definition less : bytes := six ++ txt "8" ++ [10].
Lemma lines_lost : shown seven less = UB /\ (forall color percent f, parser_test color percent [Request None (txt "a.xml") (Some (txt "C")) seven less] = Ok f -> False) /\
  (forall color percent f, parser_test color percent [Request None (txt "a.xml") (Some (txt "C")) less seven] = Ok f -> False).
Proof. split; [vm_compute; reflexivity|]. split; intros color percent f H; destruct color; vm_compute in H; discriminate H. Qed.
(** ** A cut that is right *)
Definition changed : bytes := six ++ txt "xyz" ++ [10] ++ txt "8" ++ [10].
Lemma right_cut : shown seven changed = Ok (txt "7", txt "xyz") /\ in_line seven changed /\ cut seven changed (txt "7") (txt "xyz").
Proof.
  assert (S : shown seven changed = Ok (txt "7", txt "xyz")) by (vm_compute; reflexivity). assert (I : in_line seven changed) by (vm_compute; discriminate).
  split; [exact S|]. split; [exact I|]. apply shown_cut; [exact S|discriminate|exact I].
Qed.
