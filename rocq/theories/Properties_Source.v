(** Property C45: the source of a unit is extracted from its srcML as it was parsed.
    XML is read by [xml_document] (Source_Spec.v), extract_src is [extract_src] (Source_Model.v), the parser's output [printed]
    (Source_Elements.v). *)
From Verif Require Import Base Text_Model Text_Spec Api_Model Api_Spec Writer_Model Writer_Spec Writer_Proofs10 Parser_Model Parser_Spec
  Source_Model Source_Spec Source_Proofs Source_Proofs4 Source_Elements Source_Whole Source_Examples Properties_Parser.
Local Open Scope N_scope.

(** Whatever elements, attributes and text the parser delivers, control characters among them, what extract_src makes of the srcML is the
    text; srcml_unit_unparse and the line count use it. *)
Theorem C45_parsed : forall extract a u lang encoding hash ts s,
  usable a (parse_start a (wu u) lang encoding) -> clean_opt hash -> fine_unit a (parse_end a (wu u) lang encoding hash) -> shows ts s ->
  exists v, parse_unit extract a u lang encoding hash (flat_map tokens_of ts) = Ok (ST_OK, v) /\
    (exists ev, xml_document (uo_srcml (wu v)) ev /\ extract_src ev = Ok s) /\
    (uo_src (wu u) = None -> (forall ev, xml_document (uo_srcml (wu v)) ev -> extract_src ev = Ok (extract (uo_srcml (wu v)))) ->
     uo_src (wu v) = Some s /\ uo_loc (wu v) = Z.of_nat (loc_written s)).
Proof. exact source_kept. Qed.
Print Assumptions C45_parsed.
(** The whole way: the lexer's tokens, the parser with any grammar, the printed elements, the srcML, and back to the source.
    Missing: the parses that log other faults (C08, C09). *)
Theorem C45_round_trip_partial : forall extract a u lang encoding hash o rs src cs l s tks,
  usable a (parse_start a (wu u) lang encoding) -> clean_opt hash -> fine_unit a (parse_end a (wu u) lang encoding hash) -> lexed src ->
  pull o rs cs (construct src) = (l, AtEof, s) -> (forall f, In f (log s) -> f = Fcomment \/ f = Fouter) ->
  printed (Writer_Spec.prefix_of a (parse_start a (wu u) lang encoding) POS) (outputs l) tks ->
  exists v, parse_unit extract a u lang encoding hash tks = Ok (ST_OK, v) /\
    (exists ev, xml_document (uo_srcml (wu v)) ev /\ extract_src ev = Ok (source src)) /\
    (uo_src (wu u) = None -> (forall ev, xml_document (uo_srcml (wu v)) ev -> extract_src ev = Ok (extract (uo_srcml (wu v)))) ->
     uo_src (wu v) = Some (source src) /\ uo_loc (wu v) = Z.of_nat (loc_written (source src))).
Proof. exact round_trip. Qed.
Print Assumptions C45_round_trip_partial.
(** a document is read in one way only *)
Theorem C45_one_reading : forall d l l', xml_document d l -> xml_document d l' -> l = l'.
Proof. exact document_det. Qed.
Print Assumptions C45_one_reading.
(** however the XML parser cuts text into pieces *)
Theorem C45_pieces : forall l k, joined l k -> extract_src l = extract_src k.
Proof. intros l k J. exact (joined_extract l k J []). Qed.
Print Assumptions C45_pieces.
(** for every sequence of elements of the table something is printed *)
Theorem C45_printed : forall pos l, (forall e, In (Open e) l -> elements_of e <> []) -> ~ In (Esc []) l -> exists k, printed pos l k.
Proof. exact printed_total. Qed.
Print Assumptions C45_printed.

(** Elements named escape that do not come from the parser: without attributes, or in no namespace, extract_src reads through a null
    pointer. Written element by element, srcml_write_end_unit itself does it. *)
Theorem C45_bare_escape_refuted : forall extract, exists v ev,
  write_by_element extract archive_create fresh [EStart None (txt "escape") None; EEnd] = Ok (ST_OK, v) /\
  xml_document (uo_srcml (wu v)) ev /\ extract_src ev = UB.
Proof. exact bare_escape. Qed.
Print Assumptions C45_bare_escape_refuted.
Theorem C45_other_namespace_refuted : forall extract, exists v ev,
  write_by_element extract (Api_Model.run [RegisterNamespace (Some (txt "s")) (Some SRC_URI)] archive_create) fresh
    [EStart None (txt "escape") None; EAttribute None (txt "char") None (txt "0x01"); EEnd] = Ok (ST_OK, v) /\
  xml_document (uo_srcml (wu v)) ev /\ extract_src ev = UB.
Proof. exact plain_escape. Qed.
Print Assumptions C45_other_namespace_refuted.

Lemma parsed1 : exists l s, pull o0 true calls1 (construct src1) = (l, AtEof, s) /\ log s = [] /\
  outputs l = [Open (Ename 1); Open (Ename 2); Txt [97%N]; Close; Txt [32%N]; Open (Ename 3); Txt [98%N]; Close;
    Open (Ename 9); Txt [35%N]; Txt [100%N]; Close; Txt [10%N]; Open (Ecomment Cline); Txt [47%N; 47%N];
    Txt [120%N]; Close; Txt [10%N]; Txt [59%N]; Close].
Proof.
  destruct (pull o0 true calls1 (construct src1)) as [[l e] s] eqn:E. exists l, s. pose proof parse1 as P. rewrite E in P. cbn [seen] in P.
  injection P as P1 P2 P3. rewrite P2, P3. auto.
Qed.
Example C45_example : exists l s tks v ev,
  usable archive_create (parse_start archive_create (wu a_c) 2 None) /\ fine_unit archive_create (parse_end archive_create (wu a_c) 2 None None) /\ lexed src1 /\
  pull o0 true calls1 (construct src1) = (l, AtEof, s) /\ log s = [] /\
  printed (Writer_Spec.prefix_of archive_create (parse_start archive_create (wu a_c) 2 None) POS) (outputs l) tks /\
  parse_unit (fun _ => source src1) archive_create a_c 2 None None tks = Ok (ST_OK, v) /\
  xml_document (uo_srcml (wu v)) ev /\ extract_src ev = Ok (source src1) /\ source src1 = [97; 32; 98; 35; 100; 10; 47; 47; 120; 10; 59].
Proof.
  destruct parsed1 as (l & s & P & L & O).
  assert (LX : lexed src1) by (apply lexed_ok; vm_compute; reflexivity).
  destruct (printed_total (Writer_Spec.prefix_of archive_create (parse_start archive_create (wu a_c) 2 None) POS) (outputs l)) as (tks & PR).
  { intros e I. rewrite O in I. repeat (destruct I as [I|I]; [try discriminate I; injection I as <-; discriminate|]). destruct I. }
  { intros I. rewrite O in I. repeat (destruct I as [I|I]; [discriminate I|]). destruct I. }
  destruct (round_trip (fun _ => source src1) archive_create a_c 2 None None o0 true src1 calls1 l s tks a_c_usable Logic.I a_c_fine LX P) as (v & E & (ev & D & X) & _);
    [intros f I; rewrite L in I; destruct I|exact PR|].
  exists l, s, tks, v, ev. split; [exact a_c_usable|]. split; [exact a_c_fine|]. split; [exact LX|]. split; [exact P|]. split; [exact L|]. split; [exact PR|].
  split; [exact E|]. split; [exact D|]. split; [exact X|]. reflexivity.
Qed.
