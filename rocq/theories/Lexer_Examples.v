(** Names and macros; sources that lose characters, end comments early, or shift columns; the whole way from the source. *)
From Verif Require Import Base Text_Model Text_Spec Text_Proofs3 Api_Model Writer_Model Writer_Spec Writer_Proofs10 Parser_Model Parser_Spec
  Source_Model Source_Spec Source_Elements Source_Whole Lexer_Model Lexer_Spec Lexer_Proofs Lexer_Proofs2 Lexer_Proofs3 Lexer_Proofs4 Lexer_Proofs5
  Lexer_Proofs6 Lexer_Proofs7 Lexer_Proofs8 Lexer_Proofs9 Lexer_Comments.
Local Open Scope N_scope.

(** ** Extents *)
Lemma extents : forall w s l, In (s_lang w) languages -> simple_macros (s_macros w) -> ~ unusual s -> ~ doubled s (regions Code s) ->
  ~ broken s (regions Code s) \/ Forall (fun t => k_type t <> PREPROC) l ->
  tokens w s = (l, AtEnd) -> marked Code l = map plain (regions Code s).
Proof.
  intros w s l LG SM U D B H. symmetry.
  assert (X : exists pre, clear_of pre s (regions Code s) /\ (pre = false -> Forall (fun t => k_type t <> PREPROC) l)).
  { destruct B as [B|B]; [exists true|exists false]; (split; [split; [exact D|]|]); try discriminate; auto. }
  destruct X as (pre & C & P). apply (scan_labels (length s) w new_main None (Place 1 1) s l pre); try assumption; [apply Nat.le_refl|reflexivity|exact Logic.I|].
  intros Q. split; [reflexivity|]. split; [discriminate|exact (P Q)].
Qed.

(** ** Names and macros *)
Definition by_table (lang : N) (ms : list (bytes * bytes)) (k : tk) (t : bytes) : Prop :=
  (k = NAME -> literals lang ms t = None) /\ (k = MACRO_NAME -> literals lang ms t = Some MACRO_NAME).
Lemma table_retype : forall lang ms t k, k <> MACRO_NAME -> by_table lang ms (match literals lang ms t with Some k => k | None => k end) t.
Proof.
  intros lang ms t k NE. destruct (literals lang ms t) as [k0|] eqn:E; split; try congruence; try (intros ->; exact E).
  intros ->. exfalso. destruct (literal_kind _ _ _ _ E) as [Q|(Q & _)]; [|discriminate Q]. unfold literals in E.
  destruct (keyword_of lang t) as [k1|] eqn:K; [|apply macro_kind in E as [E|(n & E)]; discriminate E]. injection E as ->. apply keyword_in in K as (l & I & _).
  pose proof table_kinds as T. rewrite forallb_forall in T. specialize (T _ I). cbn in T. discriminate T.
Qed.
Lemma main_table : forall lang ms column m c r a, main_rule lang (literals lang ms) column m c r = Some a -> by_table lang ms (m_type a) (m_text a).
Proof.
  intros lang ms column m c r a H. unfold main_rule in H.
  destruct (c =? 34); [injection H as <-; split; discriminate|]. destruct (c =? 39); [injection H as <-; split; discriminate|].
  destruct (digit c); [destruct (constants [c] r) as ((i, t), r2); injection H as <-; destruct i; split; discriminate|].
  destruct (name_start c).
  { injection H as <-. unfold name. destruct (many name_char [c] r) as (t, r1). cbv zeta.
    match goal with |- by_table _ _ (m_type (Matched (match literals _ _ (m_text ?x) with Some _ => _ | None => _ end) _ _ _ _)) _ => set (res := x) end. cbn [m_type m_text]. apply table_retype.
    unfold res, raw_string_start, string_start. repeat match goal with |- context[match ?x with _ => _ end] => destruct x; cbn [m_type] end; discriminate. }
  destruct (c =? 47).
  { injection H as <-. unfold comment_start. match goal with |- by_table _ _ (m_type (match ?x with _ => _ end)) _ => destruct x as (((k, e), t), r2) eqn:E end. cbn [m_type m_text]. apply table_retype.
    intros ->. revert E. repeat match goal with |- (match ?x with _ => _ end) = _ -> _ => destruct x end; discriminate. }
  destruct (_ || _); [destruct (many _ [c] r); injection H as <-; split; discriminate|]. destruct (c =? 10); [injection H as <-; split; discriminate|].
  destruct (_ && _); [injection H as <-; split; discriminate|].
  destruct (operator lang column m c r) as [x|] eqn:O; [|discriminate H]. injection H as <-. cbn [m_type m_text]. apply table_retype.
  intros Q. unfold operator in O. cbv zeta beta in O. rewrite hd62, hd60, hd6261 in O.
  destruct c as [|c]; [discriminate O|].
  do 7 (try (destruct c as [c|c|]; try discriminate O)).
  all: repeat match type of O with
       | (let (_, _) := ?x in _) = _ => destruct x
       | Some _ = Some _ => injection O as <-; cbn [m_type string_start char_start] in Q; try discriminate Q
       | (if ?b then _ else _) = _ => destruct b
       | (match ?x with _ => _ end) = _ => destruct x
       end.
  destruct (startline m); discriminate Q.
Qed.
Lemma tokens_table : forall w s l e t, tokens w s = (l, e) -> In t l -> by_table (s_lang w) (s_macros w) (k_type t) (k_text t).
Proof.
  intros w s l e t H I. apply in_split in I as (a & b & E). destruct (scan_at (length s) w new_main None (Place 1 1) s _ _ _ _ _ (Nat.le_refl _) eq_refl H E) as (n2 & m1 & x1 & p1 & m2 & x2 & p2 & r & LR & A1 & NX & S & m3 & R).
  unfold next in NX. destruct (k_text t ++ r) as [|c u] eqn:T; [discriminate NX|]. destruct x1 as [x1|].
  - destruct (text_rule _ _ _ _ _ _) as (((k0, t0), r0), y0) eqn:TR. injection NX as N1 N2 N3 N4 N5. apply rule_app in TR as (v & _ & _ & _ & K & _); [|apply Nat.le_refl].
    rewrite <- N1. destruct K as [->|[(-> & _)|(e0 & ->)]]; split; discriminate.
  - destruct (main_rule _ _ _ m1 c u) as [m|] eqn:MR; [|discriminate NX]. injection NX as N1 N2 N3 N4 N5. apply main_table in MR. rewrite <- N1, <- N2. exact MR.
Qed.
Lemma macro_known : forall ms n ty, In (n, ty) ms -> macro_token ty <> None -> macro_of ms n <> None.
Proof.
  induction ms as [|(n0, ty0) ms IH]; intros n ty I K; [destruct I|]. cbn [macro_of]. destruct I as [I|I].
  - injection I as -> ->. destruct (macro_of ms n); [discriminate|]. rewrite (proj2 (beqb_true n n) eq_refl). exact K.
  - specialize (IH _ _ I K). destruct (macro_of ms n); [discriminate|contradiction].
Qed.
Lemma known_token : forall ty, In ty macro_types -> macro_token ty <> None.
Proof. intros ty I. cbn in I. repeat (destruct I as [<-|I]; [vm_compute; discriminate|]). destruct I. Qed.
Lemma macro_source : forall ms t k, macro_of ms t = Some k -> k = MACRO_NAME -> In (t, txt "src:macro") ms.
Proof.
  induction ms as [|(n, ty) ms IH]; intros t k H K; cbn [macro_of] in H; [discriminate H|].
  destruct (macro_of ms t) as [k0|] eqn:E; [injection H as ->; right; exact (IH _ _ E K)|]. destruct (beqb n t) eqn:B; [|discriminate H]. apply beqb_true in B. subst n k. left. f_equal.
  unfold macro_token in H. destruct (beqb ty (txt "src:macro")) eqn:B; [apply beqb_true in B; exact B|].
  repeat match type of H with (if ?b then _ else _) = _ => destruct b end; discriminate H.
Qed.
Lemma names_unregistered : forall w s l e t ty, tokens w s = (l, e) -> In t l -> k_type t = NAME -> In (k_text t, ty) (s_macros w) -> ~ In ty macro_types.
Proof.
  intros w s l e t ty H I K M T. destruct (tokens_table _ _ _ _ _ H I) as (B & _). specialize (B K). unfold literals in B. destruct (keyword_of _ _); [discriminate B|].
  exact (macro_known _ _ _ M (known_token _ T) B).
Qed.
Lemma macros_registered : forall w s l e t, tokens w s = (l, e) -> In t l -> k_type t = MACRO_NAME -> In (k_text t, txt "src:macro") (s_macros w).
Proof.
  intros w s l e t H I K. destruct (tokens_table _ _ _ _ _ H I) as (_ & B). specialize (B K). unfold literals in B. destruct (keyword_of _ _) as [k|] eqn:Q; [|exact (macro_source _ _ _ B eq_refl)].
  injection B as ->. apply keyword_in in Q as (x & J & _). pose proof table_kinds as T. rewrite forallb_forall in T. specialize (T _ J). discriminate T.
Qed.
(** a keyword of the language is a keyword, whatever is registered *)
Lemma keyword_first : forall lang ms t k, keyword_of lang t = Some k -> literals lang ms t = Some k.
Proof. intros lang ms t k H. unfold literals. rewrite H. reflexivity. Qed.
Lemma names_not_keywords : forall w s l e t k x, tokens w s = (l, e) -> In t l -> k_type t = NAME \/ k_type t = MACRO_NAME -> In (k_text t, k, x) keyword_map -> inLanguage (s_lang w) x = false.
Proof.
  intros w s l e t k x H I K M. destruct (inLanguage (s_lang w) x) eqn:L; [exfalso|reflexivity]. destruct (tokens_table _ _ _ _ _ H I) as (B1 & B2).
  assert (KO : keyword_of (s_lang w) (k_text t) <> None).
  { unfold keyword_of. destruct (find _ _) as [((n, k0), l0)|] eqn:F; [discriminate|]. pose proof (find_none _ _ F (k_text t, k, x) (proj1 (in_rev _ _) M)) as Q. cbn [fst snd] in Q.
    rewrite (proj2 (beqb_true (k_text t) (k_text t)) eq_refl), L in Q. discriminate Q. }
  destruct (keyword_of (s_lang w) (k_text t)) as [k0|] eqn:Q; [|contradiction]. destruct K as [K|K].
  - specialize (B1 K). rewrite (keyword_first _ _ _ _ Q) in B1. discriminate B1.
  - specialize (B2 K). rewrite (keyword_first _ _ _ _ Q) in B2. injection B2 as ->. apply keyword_in in Q as (y & J & _). pose proof table_kinds as T. rewrite forallb_forall in T. specialize (T _ J). discriminate T.
Qed.

(** ** From the source and back *)
Lemma source_round_trip : forall extract a u lang encoding hash o rs w text tl cs l s tks,
  usable a (parse_start a (wu u) lang encoding) -> clean_opt hash -> fine_unit a (parse_end a (wu u) lang encoding hash) ->
  tokens w text = (tl, AtEnd) -> inLanguage (s_lang w) CXX = false \/ ~ occurs [82; 34] text \/ Forall (fun c => ~ control c) text ->
  pull o rs cs (construct (parser_tokens tl)) = (l, AtEof, s) -> (forall f, In f (log s) -> f = Fcomment \/ f = Fouter) ->
  printed (Writer_Spec.prefix_of a (parse_start a (wu u) lang encoding) POS) (outputs l) tks ->
  exists v, parse_unit extract a u lang encoding hash tks = Ok (ST_OK, v) /\
    (exists ev, xml_document (uo_srcml (wu v)) ev /\ extract_src ev = Ok text) /\
    (uo_src (wu u) = None -> (forall ev, xml_document (uo_srcml (wu v)) ev -> extract_src ev = Ok (extract (uo_srcml (wu v)))) ->
     uo_src (wu v) = Some text /\ uo_loc (wu v) = Z.of_nat (loc_written text)).
Proof.
  intros extract a u lang encoding hash o rs w text tl cs l s tks U C F T CC P L PR.
  pose proof (tokens_lexed _ _ _ _ T CC) as LX. assert (E : source (parser_tokens tl) = text).
  { rewrite tokens_source. destruct (tokens_cover _ _ _ _ T) as (rest & E & _ & ->). rewrite app_nil_r in E. symmetry. exact E. }
  rewrite <- E. exact (round_trip extract a u lang encoding hash o rs (parser_tokens tl) cs l s tks U C F LX P L PR).
Qed.

(** ** Sources *)
Definition cxx : setting := Setting 2 [] 8.
Definition types (x : list tok * ending) : list (tk * bytes) := map (fun t => (k_type t, k_text t)) (fst x).
Lemma deleted : exists l rest, tokens cxx (txt "a" ++ [127] ++ txt "b;") = (l, NoRule rest) /\ text_of l = txt "a" /\ rest = [127] ++ txt "b;".
Proof. eexists _, _. split; [vm_compute; reflexivity|]. split; reflexivity. Qed.
Lemma by_zero : snd (tokens (Setting 2 [] 0) (txt "a" ++ [9] ++ txt "b;")) = DivisionByZero.
Proof. vm_compute. reflexivity. Qed.
Lemma delimiter : exists l t, tokens cxx (txt "R""" ++ [7] ++ txt "(a)" ++ [7] ++ txt """;") = (l, AtEnd) /\ In t l /\ k_type t <> CONTROL_CHAR /\ In 7 (k_text t) /\ control 7.
Proof.
  eexists _, _. split; [vm_compute; reflexivity|]. split; [left; reflexivity|]. split; [discriminate|]. split; [right; right; left; reflexivity|]. unfold control. lia.
Qed.
Lemma adjacent : exists l, tokens cxx (txt "x=""a""""b"";") = (l, AtEnd) /\ marked Code l <> map plain (regions Code (txt "x=""a""""b"";")).
Proof. eexists. split; [vm_compute; reflexivity|]. vm_compute. discriminate. Qed.
Lemma whole_early : exists l, tokens cxx (txt "/*!/ a */ b;") = (l, AtEnd) /\ marked Code l <> map plain (regions Code (txt "/*!/ a */ b;")).
Proof. eexists. split; [vm_compute; reflexivity|]. vm_compute. discriminate. Qed.
Lemma verbatim : types (tokens (Setting 8 [] 8) (txt "@""a\""""b"";")) =
  [(STRING_START, txt "@"""); (Ends STRING_END, txt "a\"""); (STRING_START, txt """"); (Ends STRING_END, txt "b"""); (Kw (txt "TERMINATE"), txt ";")].
Proof. vm_compute. reflexivity. Qed.
Lemma separator : types (tokens cxx (txt "1'000;")) = [(CONSTANTS, txt "1"); (CHAR_START, txt "'"); (COMMENT_TEXT, txt "000;")].
Proof. vm_compute. reflexivity. Qed.
Lemma tabbed : exists l t, tokens (Setting 2 [] 4) (txt "/*" ++ [9] ++ txt "*/b;") = (l, AtEnd) /\ In t l /\ k_type t = NAME /\ k_col t = 11 /\ column_after 4 (txt "/*" ++ [9] ++ txt "*/") = 7.
Proof. eexists _, _. split; [vm_compute; reflexivity|]. split; [right; right; left; reflexivity|]. split; [reflexivity|]. split; reflexivity. Qed.
