(** Line counts of the reader (C20): [getLOC] after the whole source has been read. *)
From Verif Require Import Base Reader_Model Reader_Spec Reader_Proofs Reader_Proofs2 Reader_Proofs3 Text_Model Text_Spec Text_Proofs.
Local Open Scope N_scope.

Lemma count_lf_byte l : count_lf l = count_byte 10 l.
Proof.
  unfold count_lf, count_byte. induction l as [|a l IH]; [reflexivity|]. cbn [count_occ filter].
  destruct (N.eq_dec a 10) as [->|D].
  - cbn [N.eqb Pos.eqb length]. rewrite IH. reflexivity.
  - destruct (N.eqb_spec 10 a) as [E|_]; [congruence|]. exact IH.
Qed.
Lemma getLOC_lines cv (r : reader cv) l : l <> [] ->
  loc cv r = count_lf l -> lastchar cv r = last l 0 -> line_count l (getLOC cv r).
Proof.
  intros Hn H1 H2. rewrite (getLOC_val _ _ _ H1 H2), count_lf_byte.
  pose proof (final_loc_count l) as F. destruct l as [|c l]; [congruence|].
  exact F.
Qed.
Lemma eol_norm_nonempty l : l <> [] -> eol_norm l <> [].
Proof. destruct l as [|c l]; [congruence|]. intros _. simpl. destruct c as [|p]; [discriminate|]. do 4 (destruct p as [p|p|]; try discriminate). Qed.
Lemma latin1_nonempty l : l <> [] -> flat_map utf8_of_latin1 l <> [].
Proof. destruct l as [|c l]; [congruence|]. intros _. cbn [flat_map]. unfold utf8_of_latin1 at 1. destruct (c <? 128); discriminate. Qed.

Lemma reader_lines_stream : forall hash s chunks,
  delivers s chunks -> is_bytes (concat chunks) -> no_bom (concat chunks) -> concat chunks <> [] ->
  exists r text, text = eol_norm (flat_map utf8_of_latin1 (concat chunks)) /\
    Reads glibc (open_stream glibc "" hash s) text r /\ line_count text (getLOC glibc r).
Proof.
  intros hash s chunks D B Nb Ne. destruct (undeclared_stream hash s chunks D B Nb) as (r & R & _ & L & C).
  exists r, (eol_norm (flat_map utf8_of_latin1 (concat chunks))). split; [reflexivity|]. split; [exact R|].
  apply getLOC_lines; [|exact L|exact C]. now apply eol_norm_nonempty, latin1_nonempty.
Qed.
Lemma reader_lines_memory : forall hash input,
  is_bytes input -> no_bom input -> input <> [] ->
  exists r0 r text, text = eol_norm (flat_map utf8_of_latin1 input) /\ open_memory glibc "" hash input = Ok r0 /\
    Reads glibc r0 text r /\ line_count text (getLOC glibc r).
Proof.
  intros hash input B Nb Ne. destruct (undeclared_memory hash input B Nb) as (r0 & r & O & R & _ & L & C).
  exists r0, r, (eol_norm (flat_map utf8_of_latin1 input)). split; [reflexivity|]. split; [exact O|]. split; [exact R|].
  apply getLOC_lines; [|exact L|exact C]. now apply eol_norm_nonempty, latin1_nonempty.
Qed.
(** an empty source counts as one line here *)
Lemma reader_lines_empty : forall hash, exists r, Reads glibc (open_stream glibc "" hash []) [] r /\
  getLOC glibc r = 1%nat /\ ~ line_count [] 1.
Proof.
  intros hash. destruct (undeclared_stream hash [] []) as (r & R & _ & L & C).
  - exists []. repeat split; constructor.
  - constructor.
  - unfold no_bom. repeat split; intros [t Q]; discriminate.
  - exists r. split; [exact R|]. split.
    + rewrite (getLOC_val _ _ [] L C). reflexivity.
    + intros (full & rest & (E & F & _) & Q). destruct full as [|x full].
      * cbn in E. subst rest. discriminate.
      * cbn [map concat] in E. destruct x; discriminate.
Qed.
