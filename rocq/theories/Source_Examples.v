(** A unit whose source is recovered, and srcML whose source is not. *)
From Verif Require Import Base Text_Model Text_Spec Text_Proofs Api_Model Api_Spec Writer_Model Writer_Spec Writer_Proofs10 Root_Model Root_Spec Root_Proofs Root_Proofs5 Root_Proofs8
  Parser_Model Parser_Spec Source_Model Source_Spec Source_Proofs Source_Proofs4 Source_Elements Source_Whole.
Local Open Scope N_scope.

(** for every sequence of calls with elements of the table there is something printed *)
Lemma printed_total : forall pos l, (forall e, In (Open e) l -> elements_of e <> []) -> ~ In (Esc []) l -> exists k, printed pos l k.
Proof.
  induction l as [|x l IH]; intros H N; [exists []; constructor|].
  destruct IH as (k & P); [intros e I; apply H; right; exact I|intros I; apply N; right; exact I|].
  destruct x as [e| |x|x].
  - destruct (elements_of e) as [|((i, n), al) r] eqn:E; [destruct (H e (or_introl eq_refl) E)|]. exists (TStart i n al (attrs []) :: k).
    constructor; [rewrite E; left; reflexivity|left; reflexivity|exact P].
  - exists (TEnd :: k). constructor. exact P.
  - exists (TText x :: k). constructor. exact P.
  - destruct x as [|c x]; [destruct N; left; reflexivity|]. eexists. constructor. exact P.
Qed.
Definition lexed_b (t : ltok) : bool :=
  match l_type t with
  | Lcontrol => match l_text t with [c] => c <? 32 | _ => false end
  | _ => forallb (fun c => (32 <=? c) || (c =? 9) || (c =? 10)) (l_text t)
  end.
Lemma lexed_ok : forall src, forallb lexed_b src = true -> lexed src.
Proof.
  intros src H. apply Forall_forall. intros t I. apply (proj1 (forallb_forall _ _) H) in I. unfold lexed_b in I.
  assert (X : forallb (fun c => (32 <=? c) || (c =? 9) || (c =? 10)) (l_text t) = true -> Forall (fun c => 32 <= c \/ c = 9 \/ c = 10) (l_text t)).
  { clear. intros H. apply Forall_forall. intros c I. apply (proj1 (forallb_forall _ _) H) in I. apply orb_prop in I as [I|I]; [apply orb_prop in I as [I|I]|].
    - left. apply N.leb_le, I.
    - right. left. apply N.eqb_eq, I.
    - right. right. apply N.eqb_eq, I. }
  destruct (l_type t); auto. destruct (l_text t) as [|c [|d r]]; try discriminate. exists c. split; [reflexivity|]. apply N.ltb_lt, I.
Qed.
Definition a_c : wunit := plain_unit (txt "a.c").
Lemma a_c_usable : usable archive_create (parse_start archive_create (wu a_c) 2 None).
Proof.
  destruct (usable_new a_c) as (A & B & C); [right; right; left; reflexivity|]. split; [exact A|]. split; [exact B|exact C].
Qed.
Lemma a_c_fine : fine_unit archive_create (parse_end archive_create (wu a_c) 2 None None).
Proof.
  split; [|split; [|split; [exact Logic.I|]]].
  - match goal with |- Forall _ ?l => let r := eval vm_compute in l in replace l with r by (vm_compute; reflexivity) end.
    repeat first [apply Forall_nil|apply Forall_cons];
      (split; [first [left; reflexivity|right; split; [name_ok|repeat split; discriminate]]|split; [discriminate|apply chars_b_ok; vm_compute; reflexivity]]).
  - vm_compute. repeat constructor; cbn; intros H; repeat destruct H as [H|H]; try discriminate H; exact H.
  - split; [apply chars_b_ok; vm_compute; reflexivity|]. split; [exact Logic.I|]. split; [|split; [vm_compute; reflexivity|split; [constructor|intros n v []]]].
    cbv zeta. split; [apply chars_b_ok; vm_compute; reflexivity|]. split; [apply chars_b_ok; vm_compute; reflexivity|]. repeat (split; [exact Logic.I|]). exact Logic.I.
Qed.

(** ** Elements named escape that the source cannot be extracted from *)
Lemma tag_reads : forall q al, qname q -> Forall (fun p => qname (fst p) /\ xml_chars (snd p)) al -> NoDup (map fst al) -> xml_tag ([60] ++ q ++ attrs al) q al.
Proof. intros q al Q F D. exists (attrs al). split; [reflexivity|]. split; [exact Q|]. apply attrs_read; assumption. Qed.
Ltac qname_ok := split; [discriminate|repeat (apply Forall_cons; [unfold name_byte; vm_compute; repeat split; discriminate|]); apply Forall_nil].
Ltac tag_ok := apply tag_reads; [qname_ok|repeat (apply Forall_cons; [split; [qname_ok|apply chars_b_ok; vm_compute; reflexivity]|]); apply Forall_nil|
  repeat constructor; cbn; intros H; repeat destruct H as [H|H]; try discriminate H; exact H].
Lemma bare_escape : forall extract, exists v ev, write_by_element extract archive_create fresh [EStart None (txt "escape") None; EEnd] = Ok (ST_OK, v) /\
  xml_document (uo_srcml (wu v)) ev /\ extract_src ev = UB.
Proof.
  intros extract. eexists. exists [XStart (txt "unit") (Some SRC_URI) [(txt "revision", txt "1.0.0")]; XStart (txt "escape") (Some SRC_URI) []; XEnd; XEnd].
  split; [vm_compute; reflexivity|]. split; [|vm_compute; reflexivity].
  pose (al := [(txt "xmlns", SRC_URI); (txt "revision", txt "1.0.0")]).
  exists ([60] ++ txt "unit" ++ attrs al), (txt "unit"), None, (txt "unit"), al.
  split; [tag_ok|]. split; [split; discriminate|]. split; [split; [name_ok|reflexivity]|]. left.
  exists (([60] ++ txt "escape" ++ attrs []) ++ txt "/>" ++ txt "</" ++ txt "unit" ++ [62] ++ []). exists [start_event (txt "escape") None [] (sax_namespaces al); XEnd; XEnd]. split; [vm_compute; reflexivity|]. split; [|vm_compute; reflexivity].
  apply (rd_empty _ _ _ _ (txt "escape") None (txt "escape") []); [tag_ok|split; discriminate|split; [name_ok|reflexivity]|].
  apply rd_end, rd_done.
Qed.
Lemma plain_escape : forall extract, exists v ev, write_by_element extract (Api_Model.run [RegisterNamespace (Some (txt "s")) (Some SRC_URI)] archive_create) fresh
    [EStart None (txt "escape") None; EAttribute None (txt "char") None (txt "0x01"); EEnd] = Ok (ST_OK, v) /\
  xml_document (uo_srcml (wu v)) ev /\ extract_src ev = UB.
Proof.
  intros extract. eexists. exists [XStart (txt "unit") (Some SRC_URI) [(txt "revision", txt "1.0.0")]; XStart (txt "escape") None [(txt "char", txt "0x01")]; XEnd; XEnd].
  split; [vm_compute; reflexivity|]. split; [|vm_compute; reflexivity].
  pose (al := [(txt "xmlns:s", SRC_URI); (txt "revision", txt "1.0.0")]).
  exists ([60] ++ txt "s:unit" ++ attrs al), (txt "s:unit"), (Some (txt "s")), (txt "unit"), al.
  split; [tag_ok|]. split; [split; discriminate|]. split; [split; [name_ok|split; [name_ok|reflexivity]]|]. left.
  exists (([60] ++ txt "escape" ++ attrs [(txt "char", txt "0x01")]) ++ txt "/>" ++ txt "</" ++ txt "s:unit" ++ [62] ++ []). exists [start_event (txt "escape") None [(txt "char", txt "0x01")] (sax_namespaces al); XEnd; XEnd]. split; [vm_compute; reflexivity|]. split; [|vm_compute; reflexivity].
  apply (rd_empty _ _ _ _ (txt "escape") None (txt "escape") [(txt "char", txt "0x01")]); [tag_ok|split; discriminate|split; [name_ok|reflexivity]|].
  apply rd_end, rd_done.
Qed.
