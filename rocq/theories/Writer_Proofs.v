(** Proofs about the text writer and writing by element. *)
From Verif Require Import Base Text_Model Text_Spec Text_Proofs Text_Proofs2 Text_Proofs3 Api_Model Api_Proofs Api_Proofs3 Writer_Model Writer_Spec.
Local Open Scope N_scope.

Lemma attrs_app : forall a b, attrs (a ++ b) = attrs a ++ attrs b.
Proof. intros. unfold attrs. apply flat_map_app. Qed.

(** ** What has been written for a tree being built *)
(** all start tags closed *)
Fixpoint out_closed (fs : list frame) (root : list node) : bytes :=
  match fs with
  | [] => [62] ++ xml_all root
  | f :: r => out_closed r root ++ [60] ++ f_name f ++ attrs (f_attrs f ++ f_decls f) ++ [62] ++ xml_all (f_kids f)
  end.
(** the innermost start tag still open when it has no content *)
Definition top_kids (b : building) : list node := match fst b with [] => snd b | f :: _ => f_kids f end.
Definition out_now (b : building) : bytes :=
  match top_kids b with
  | [] => match fst b with
          | [] => []
          | f :: r => out_closed r (snd b) ++ [60] ++ f_name f ++ attrs (f_attrs f)
          end
  | _ => out_closed (fst b) (snd b)
  end.
Definition top_decls (b : building) : list (bytes * bytes) :=
  match top_kids b with [] => match fst b with [] => [] | f :: _ => f_decls f end | _ => [] end.
Definition in_tag (b : building) : bool := match top_kids b with [] => true | _ => false end.
Definition writes (tag q : bytes) (b : building) (w : writer) : Prop :=
  w = Writer (tag ++ out_now b) (Some (map f_name (fst b) ++ [q])) (in_tag b) (top_decls b).

Lemma xml_all_app : forall a b, xml_all (a ++ b) = xml_all a ++ xml_all b.
Proof. intros. apply flat_map_app. Qed.

Lemma close_writes : forall tag q b w, writes tag q b w ->
  close_tag w = Writer (tag ++ out_closed (fst b) (snd b)) (Some (map f_name (fst b) ++ [q])) false [].
Proof.
  intros tag q [fs root] w ->. unfold close_tag, out_now, in_tag, top_decls, top_kids; cbn [fst snd w_intag w_out w_nodes w_ns].
  destruct fs as [|[n al ds ks] r]; cbn [f_kids f_name f_attrs f_decls].
  - destruct root; cbn [w_intag w_out w_nodes w_ns out_closed]; [|reflexivity]. cbn. rewrite !app_nil_r. reflexivity.
  - destruct ks; cbn [w_intag w_out w_nodes w_ns out_closed f_kids f_name f_attrs f_decls]; [|reflexivity].
    rewrite attrs_app. cbn [xml_all flat_map]. rewrite !app_nil_r, <- !app_assoc. reflexivity.
Qed.

Lemma raw_kid : forall tag q b w n s, writes tag q b w -> xml n = s -> writes tag q (add_kid b n) (fst (write_raw w s)) /\ snd (write_raw w s) = true.
Proof.
  intros tag q [fs root] w n s H <-. unfold write_raw. rewrite (close_writes _ _ _ _ H). cbn [fst snd]. split; [|reflexivity].
  unfold writes, add_kid, out_now, in_tag, top_decls, top_kids. cbn [fst snd w_out w_nodes w_intag w_ns].
  destruct fs as [|[m al ds ks] r]; cbn [fst snd f_kids f_name f_attrs f_decls map out_closed].
  - destruct (root ++ [n]) as [|k l] eqn:E; [destruct root; discriminate|]. rewrite <- E. rewrite xml_all_app. cbn [xml_all flat_map].
    rewrite app_nil_r, <- !app_assoc. reflexivity.
  - destruct (ks ++ [n]) as [|k l] eqn:E; [destruct ks; discriminate|]. rewrite <- E. rewrite xml_all_app. cbn [xml_all flat_map].
    rewrite app_nil_r, <- !app_assoc. reflexivity.
Qed.

Lemma esc_text_escaped : forall s, ~ In 34 s -> esc_text s = escaped s.
Proof.
  induction s as [|c t IH]; [reflexivity|]. intros H. unfold esc_text, escaped in *. cbn [flat_map].
  rewrite IH by (intros G; apply H; right; exact G). f_equal.
  assert (c <> 34) by (intros ->; apply H; left; reflexivity).
  rewrite (proj2 (N.eqb_neq c 34)) by assumption. reflexivity.
Qed.
Lemma escaped_app : forall a b, escaped (a ++ b) = escaped a ++ escaped b.
Proof. intros. apply flat_map_app. Qed.

(** writing pieces of text is writing the text *)
Lemma add_chars : forall tag q b w s t, writes tag q (add_kid b (Chars s)) w ->
  exists w', write_raw w t = (w', true) /\ writes tag q (add_kid b (Chars (s ++ t))) w'.
Proof.
  intros tag q [fs root] w s t H. unfold write_raw. rewrite (close_writes _ _ _ _ H). cbn [fst snd]. eexists. split; [reflexivity|].
  unfold writes, add_kid, out_now, in_tag, top_decls, top_kids. cbn [fst snd w_out w_nodes w_intag w_ns].
  destruct fs as [|[m al ds ks] r]; cbn [fst snd f_kids f_name f_attrs f_decls map out_closed].
  - destruct (root ++ [Chars (s ++ t)]) as [|k l] eqn:E; [destruct root; discriminate|]. rewrite <- E. rewrite !xml_all_app. cbn [xml_all flat_map xml].
    rewrite ?app_nil_r, <- !app_assoc. reflexivity.
  - destruct (ks ++ [Chars (s ++ t)]) as [|k l] eqn:E; [destruct ks; discriminate|]. rewrite <- E. rewrite !xml_all_app. cbn [xml_all flat_map xml].
    rewrite ?app_nil_r, <- !app_assoc. reflexivity.
Qed.
Lemma write_string_raw : forall tag q b w s, writes tag q b w -> write_string w s = write_raw w (esc_text s).
Proof. intros tag q [fs root] w s ->. unfold write_string. cbn [w_nodes fst]. destruct (map f_name fs); reflexivity. Qed.
Lemma string_loop_more : forall tag q b s piece done w, writes tag q (add_kid b (Chars done)) w -> ~ In 34 piece ->
  exists w', string_loop w piece s = (w', true) /\ writes tag q (add_kid b (Chars (done ++ escaped (piece ++ s)))) w'.
Proof.
  intros tag q b. induction s as [|c t IH]; intros piece dn w H P; cbn [string_loop].
  - rewrite app_nil_r. rewrite (write_string_raw _ _ _ _ _ H), (esc_text_escaped _ P). apply add_chars, H.
  - destruct (c =? 34) eqn:E.
    + apply N.eqb_eq in E; subst c.
      rewrite (write_string_raw _ _ _ _ _ H), (esc_text_escaped _ P).
      destruct (add_chars _ _ _ _ _ (escaped piece) H) as (w1 & -> & H1). cbn [fst snd negb].
      destruct (add_chars _ _ _ _ _ [34] H1) as (w2 & -> & H2). cbn [fst snd negb].
      destruct (IH [] _ _ H2) as (w3 & E3 & H3); [intros []|]. exists w3. split; [exact E3|].
      rewrite escaped_app. cbn [app] in H3. change (escaped (34 :: t)) with ([34] ++ escaped t). rewrite <- !app_assoc in H3. exact H3.
    + apply N.eqb_neq in E. destruct (IH (piece ++ [c]) _ _ H) as (w3 & E3 & H3).
      * rewrite in_app_iff. intros [G|[G|[]]]; [exact (P G)|]. apply E. exact G.
      * exists w3. split; [exact E3|]. rewrite <- app_assoc in H3. exact H3.
Qed.
Lemma string_loop_ok : forall tag q b s piece w, writes tag q b w -> ~ In 34 piece ->
  exists w', string_loop w piece s = (w', true) /\ writes tag q (add_kid b (Chars (escaped (piece ++ s)))) w'.
Proof.
  intros tag q b. induction s as [|c t IH]; intros piece w H P; cbn [string_loop].
  - rewrite app_nil_r. rewrite (write_string_raw _ _ _ _ _ H), (esc_text_escaped _ P).
    destruct (raw_kid _ _ _ _ (Chars (escaped piece)) _ H eq_refl) as [G1 G2]. eexists. split; [apply injective_projections; [reflexivity|exact G2]|exact G1].
  - destruct (c =? 34) eqn:E.
    + apply N.eqb_eq in E; subst c.
      rewrite (write_string_raw _ _ _ _ _ H), (esc_text_escaped _ P).
      destruct (raw_kid _ _ _ _ (Chars (escaped piece)) _ H eq_refl) as [G1 G2].
      change (xml (Chars (escaped piece))) with (escaped piece) in *. rewrite G2. cbn [negb].
      destruct (add_chars _ _ _ _ _ [34] G1) as (w2 & -> & H2). cbn [fst snd negb].
      destruct (string_loop_more _ _ _ t [] _ _ H2) as (w3 & E3 & H3); [intros []|]. exists w3. split; [exact E3|].
      rewrite escaped_app. cbn [app] in H3. change (escaped (34 :: t)) with ([34] ++ escaped t). rewrite <- !app_assoc in H3. exact H3.
    + apply N.eqb_neq in E. destruct (IH (piece ++ [c]) _ H) as (w3 & E3 & H3).
      * rewrite in_app_iff. intros [G|[G|[]]]; [exact (P G)|]. apply E. exact G.
      * exists w3. split; [exact E3|]. rewrite <- app_assoc in H3. exact H3.
Qed.

(** ** Single operations *)
Lemma qname_full : forall p n, qname p n = full_name p n. Proof. reflexivity. Qed.
Lemma full_name_ne : forall p n, n <> [] -> full_name p n <> [].
Proof. intros [p|] n H; cbn; [destruct p; discriminate|exact H]. Qed.
Lemma start_ok : forall tag q b w p n uri, writes tag q b w -> n <> [] ->
  exists w', start_element_ns w p n uri = (w', true) /\
    writes tag q (Frame (full_name p n) [] (match uri with Some u => [(decl_name p, u)] | None => [] end) [] :: fst b, snd b) w'.
Proof.
  intros tag q b w p n uri H N. unfold start_element_ns. destruct n as [|n0 n']; [contradiction|]. set (n := n0 :: n') in *.
  eexists. split; [reflexivity|]. unfold start_element. change (qname p n) with (full_name p n).
  destruct (full_name p n) as [|m0 m'] eqn:E; [exfalso; exact (full_name_ne p n N E)|].
  rewrite (close_writes _ _ _ _ H). cbn [w_nodes fst w_out w_intag w_ns].
  unfold writes, out_now, top_kids, in_tag, top_decls. cbn [fst snd f_kids f_name f_attrs f_decls map].
  destruct uri; cbn [attrs flat_map w_out w_nodes w_intag w_ns]; rewrite app_nil_r, <- !app_assoc; reflexivity.
Qed.
Lemma xml_finished : forall f, xml (finished f) = [60] ++ f_name f ++ attrs (f_attrs f ++ f_decls f) ++
  match f_kids f with [] => txt "/>" | _ => [62] ++ xml_all (f_kids f) ++ txt "</" ++ f_name f ++ [62] end.
Proof. intros [n al ds ks]. cbn [finished f_name f_attrs f_decls f_kids xml]. destruct ks; reflexivity. Qed.
Lemma kid_not_intag : forall b n, exists k l, top_kids (add_kid b n) = k :: l.
Proof.
  intros [[|f r] root] n; cbn; [destruct root|destruct (f_kids f)]; cbn; eauto.
Qed.
Lemma not_intag_writes : forall tag q b n, writes tag q (add_kid b n)
  (Writer (tag ++ out_closed (fst (add_kid b n)) (snd (add_kid b n))) (Some (map f_name (fst (add_kid b n)) ++ [q])) false []).
Proof.
  intros. unfold writes, out_now, in_tag, top_decls. destruct (kid_not_intag b n) as (k & l & ->). reflexivity.
Qed.
Lemma kid_names : forall b n, map f_name (fst (add_kid b n)) = map f_name (fst b).
Proof. intros [[|f r] root] n; reflexivity. Qed.
Lemma kid_out : forall b n, out_closed (fst (add_kid b n)) (snd (add_kid b n)) = out_closed (fst b) (snd b) ++ xml n.
Proof.
  intros [[|f r] root] n; cbn [add_kid fst snd out_closed f_name f_attrs f_decls f_kids]; rewrite xml_all_app; cbn [xml_all flat_map]; rewrite app_nil_r, <- !app_assoc; reflexivity.
Qed.
Lemma end_ok : forall tag q f r root w, writes tag q (f :: r, root) w ->
  exists w', end_element w = (w', true) /\ writes tag q (add_kid (r, root) (finished f)) w'.
Proof.
  intros tag q f r root w ->.
  pose proof (not_intag_writes tag q (r, root) (finished f)) as G. rewrite kid_names, kid_out, xml_finished in G. cbn [fst snd] in G.
  eexists. split; [|exact G].
  unfold end_element. cbn [w_nodes fst map app w_intag w_out w_ns]. unfold in_tag, out_now, top_decls, top_kids. cbn [fst snd].
  destruct (f_kids f) eqn:E; cbn [fst out_closed]; rewrite ?attrs_app, ?E, <- ?app_assoc; reflexivity.
Qed.
Lemma attribute_in : forall tag q n al ds r root w m v, writes tag q (Frame n al ds [] :: r, root) w -> m <> [] ->
  exists w', write_attribute w m v = (w', true) /\ writes tag q (Frame n (al ++ [(m, v)]) ds [] :: r, root) w'.
Proof.
  intros tag q n al ds r root w m v -> M. unfold write_attribute. destruct m; [contradiction|].
  unfold in_tag, top_kids at 1. cbn [fst f_kids w_intag]. eexists. split; [reflexivity|].
  unfold writes, out_now, in_tag, top_decls, top_kids. cbn [fst snd f_kids f_name f_attrs f_decls map w_out w_nodes w_intag w_ns].
  rewrite attrs_app. cbn [attrs flat_map]. rewrite ?app_nil_r, <- !app_assoc. reflexivity.
Qed.
Lemma attribute_out : forall tag q b w m v, writes tag q b w -> top_kids b <> [] -> write_attribute w m v = (w, false).
Proof.
  intros tag q b w m v -> K. unfold write_attribute. destruct m; [reflexivity|]. cbn [w_intag]. unfold in_tag.
  destruct (top_kids b); [contradiction|reflexivity].
Qed.
Lemma lookup_bound : forall q al ds p, lookup ds (xmlns p) = bound (Frame q al ds []) p.
Proof.
  intros. unfold bound. cbn [f_decls]. change (decl_name p) with (xmlns p).
  induction ds as [|[m u] t IH]; [reflexivity|]. cbn [lookup find fst snd]. destruct (beqb m (xmlns p)); [reflexivity|exact IH].
Qed.

(** ** One call *)
Definition trans_at (t : trans) (tag q : bytes) (b : building) : Prop :=
  exists w, so_w (t_out t) = Some w /\ writes tag q b w /\ t_outputting t = true /\ t_depth t = Z.of_nat (length (fst b)).
Definition same_but_writer (t t' : trans) : Prop :=
  t_first t' = t_first t /\ so_ns (t_out t') = so_ns (t_out t) /\ so_options (t_out t') = so_options (t_out t).
Lemma length_kid : forall b n, length (fst (add_kid b n)) = length (fst b).
Proof. intros [[|f r] root] n; reflexivity. Qed.

Ltac by_writer W := exists W; cbn [so_w t_out with_w with_out t_outputting t_depth];
    split; [reflexivity|]; split; [eassumption|]; split; [try reflexivity; try assumption|].
Lemma call_ok : forall tag q b t u c, trans_at t tag q b -> proper b c -> wu_trans u = Some t ->
  exists t', write_call u c = Ok (fst (spec_call b c), WUnitObj (wu u) (Some t')) /\ trans_at t' tag q (snd (spec_call b c)) /\
    so_ns (t_out t') = so_ns (t_out t).
Proof.
  intros tag q b t u c (w & Hw & W & O & D) P U. unfold write_call. rewrite U.
  destruct c as [p n uri| |p uri|p n uri v|wr s]; cbn [spec_call proper] in *.
  - unfold add_start_element. rewrite O. cbn [negb orb]. destruct (beqb n (txt "unit")) eqn:E.
    + exists t. cbn [fst snd el_status]. split; [reflexivity|]. split; [exists w; auto|reflexivity].
    + set (used := match uri with Some u0 => if beqb SRC_URI u0 then None else Some u0 | None => None end).
      destruct (start_ok tag q b w p n used W P) as (w' & E' & W').
      unfold result_w. rewrite Hw, E'. cbn [fst snd el_status]. eexists. split; [reflexivity|].
      split; [|reflexivity]. exists w'. cbn [so_w t_out with_w t_outputting t_depth fst snd length]. split; [reflexivity|].
      split; [|split; [reflexivity|lia]].
      replace (match uri with Some u0 => if beqb u0 SRC_URI then [] else [(decl_name p, u0)] | None => [] end)
        with (match used with Some u0 => [(decl_name p, u0)] | None => [] end); [exact W'|].
      unfold used. destruct uri as [u0|]; [|reflexivity]. destruct (beqb SRC_URI u0) eqn:R1.
      * apply beqb_true in R1. subst u0. reflexivity.
      * destruct (beqb u0 SRC_URI) eqn:R2; [|reflexivity]. apply beqb_true in R2. subst u0. discriminate R1.
  - destruct b as [[|f r] root]; [exfalso; apply P; reflexivity|].
    unfold add_end_element. rewrite O. destruct (end_ok tag q f r root w W) as (w' & E' & W').
    unfold result_w. rewrite Hw, E'. cbn [fst snd el_status]. eexists. split; [reflexivity|].
    split; [|reflexivity]. exists w'. cbn [so_w t_out with_w t_outputting t_depth]. split; [reflexivity|].
    split; [exact W'|]. split; [reflexivity|]. rewrite length_kid. cbn [fst length] in *. lia.
  - unfold add_namespace, result_w. rewrite O, Hw. change (xmlns p) with (decl_name p).
    assert (M : decl_name p <> []) by (destruct p; discriminate).
    destruct b as [[|[m al ds ks] r] root]; cbn [fst snd] in *.
    + destruct root as [|k l]; [destruct P as [P|P]; exfalso; apply P; reflexivity|].
      rewrite (attribute_out tag q _ w _ _ W) by discriminate. cbn [fst snd el_status].
      eexists; split; [reflexivity|]. split; [|reflexivity]. exists w. cbn. auto.
    + destruct ks as [|k l].
      * destruct (attribute_in _ _ _ _ _ _ _ _ (decl_name p) uri W M) as (w' & E' & W'). rewrite E'. cbn [fst snd el_status].
        eexists; split; [reflexivity|]. split; [|reflexivity]. exists w'. cbn [so_w t_out with_w with_out t_outputting t_depth fst snd length] in *. auto.
      * rewrite (attribute_out tag q _ w _ _ W) by discriminate. cbn [fst snd el_status].
        eexists; split; [reflexivity|]. split; [|reflexivity]. exists w. cbn [so_w t_out with_w with_out t_outputting t_depth fst snd length] in *. auto.
  - unfold add_attribute, result_w. rewrite O, Hw.
    destruct n as [|n0 n'].
    + cbn [write_attribute_ns fst snd el_status].
      eexists; split; [reflexivity|]. split; [|reflexivity]. exists w. cbn [so_w t_out with_w with_out t_outputting t_depth]. auto.
    + set (n := n0 :: n') in *. destruct P as [P1 P2].
      assert (M : full_name p n <> []) by (apply full_name_ne; discriminate).
      assert (F : forall w uri, write_attribute_ns w p n uri v = match uri with
         | None => write_attribute w (full_name p n) v
         | Some u => match lookup (w_ns w) (xmlns p) with
           | Some u' => if beqb u u' then write_attribute w (full_name p n) v else (w, false)
           | None => write_attribute (Writer (w_out w) (w_nodes w) (w_intag w) ((xmlns p, u) :: w_ns w)) (full_name p n) v end end) by reflexivity.
      rewrite F. destruct b as [[|[m al ds ks] r] root]; cbn [fst snd] in *.
      * destruct P2 as [[]|[->|G]]; [|discriminate].
        destruct root as [|k l]; [destruct P1 as [P|P]; exfalso; apply P; reflexivity|].
        rewrite (attribute_out tag q _ w _ _ W) by discriminate. cbn [fst snd el_status].
        eexists; split; [reflexivity|]. split; [|reflexivity]. exists w. cbn. auto.
      * destruct ks as [|k l].
        { assert (L : w_ns w = ds) by (rewrite W; reflexivity). destruct uri as [u0|].
          - rewrite L, (lookup_bound m al ds p). destruct (bound (Frame m al ds []) p) as [u1|] eqn:B.
            + destruct (beqb u0 u1).
              * destruct (attribute_in _ _ _ _ _ _ _ _ (full_name p n) v W M) as (w' & E' & W'). rewrite E'. cbn [fst snd el_status].
                eexists; split; [reflexivity|]. split; [|reflexivity]. exists w'. cbn [so_w t_out with_w with_out t_outputting t_depth fst snd length] in *. auto.
              * cbn [fst snd el_status]. eexists; split; [reflexivity|]. split; [|reflexivity]. exists w. cbn [so_w t_out with_w with_out t_outputting t_depth fst snd length] in *. auto.
            + assert (W2 : writes tag q (Frame m al ((decl_name p, u0) :: ds) [] :: r, root) (Writer (w_out w) (w_nodes w) (w_intag w) ((xmlns p, u0) :: ds))) by (rewrite W; reflexivity).
              destruct (attribute_in _ _ _ _ _ _ _ _ (full_name p n) v W2 M) as (w' & E' & W'). rewrite E'. cbn [fst snd el_status].
              eexists; split; [reflexivity|]. split; [|reflexivity]. exists w'. cbn [so_w t_out with_w with_out t_outputting t_depth fst snd length] in *. auto.
          - destruct (attribute_in _ _ _ _ _ _ _ _ (full_name p n) v W M) as (w' & E' & W'). rewrite E'. cbn [fst snd el_status].
            eexists; split; [reflexivity|]. split; [|reflexivity]. exists w'. cbn [so_w t_out with_w with_out t_outputting t_depth fst snd length] in *. auto. }
        { destruct P2 as [G|[->|G]]; [discriminate| |discriminate].
          rewrite (attribute_out tag q _ w _ _ W) by discriminate. cbn [fst snd el_status].
          eexists; split; [reflexivity|]. split; [|reflexivity]. exists w. cbn [so_w t_out with_w with_out t_outputting t_depth fst snd length] in *. auto. }
  - unfold add_string. rewrite O.
    assert (Q : negb wr && has_quote s = false).
    { destruct P as [->|P]; [reflexivity|]. unfold has_quote. destruct (existsb (fun c => c =? 34) s) eqn:E; [|destruct wr; reflexivity].
      apply existsb_exists in E as (c & I & E). apply N.eqb_eq in E; subst c. contradiction. }
    rewrite Q. destruct (string_loop_ok tag q b s [] w W) as (w' & E' & W'); [intros []|].
    unfold result_w. rewrite Hw, E'. cbn [fst snd obind el_status app] in *.
    eexists; split; [reflexivity|]. split; [|reflexivity]. exists w'. cbn [so_w t_out with_w with_out t_outputting t_depth].
    split; [reflexivity|]. split; [exact W'|]. split; [exact O|]. rewrite length_kid. exact D.
Qed.

Lemma calls_ok : forall tag q cs b t u, trans_at t tag q b -> all_proper b cs -> wu_trans u = Some t ->
  exists t', write_calls u cs = Ok (fst (spec_calls b cs), WUnitObj (wu u) (Some t')) /\ trans_at t' tag q (snd (spec_calls b cs)) /\
    so_ns (t_out t') = so_ns (t_out t).
Proof.
  intros tag q. induction cs as [|c cs IH]; intros b t u T P U; cbn [write_calls spec_calls all_proper] in *.
  - exists t. destruct u as [uu ut]. cbn in U. subst ut. auto.
  - destruct P as [P1 P2]. destruct (call_ok _ _ _ _ _ c T P1 U) as (t1 & E1 & T1 & N1). rewrite E1. cbn [obind fst snd].
    destruct (IH _ _ (WUnitObj (wu u) (Some t1)) T1 P2 eq_refl) as (t2 & E2 & T2 & N2). rewrite E2. cbn [obind fst snd wu].
    exists t2. split; [reflexivity|]. split; [exact T2|]. rewrite N2. exact N1.
Qed.

Lemma completed_add : forall f r root, completed (f :: r) [] root = contents (add_kid (r, root) (finished f)).
Proof.
  intros [n al ds ks] r root. unfold contents, add_kid. cbn [fst snd completed f_name f_attrs f_decls f_kids]. rewrite app_nil_r.
  destruct r as [|g r]; cbn [fst snd completed]; [rewrite app_nil_r; reflexivity|].
  cbn [f_name f_attrs f_decls f_kids]. rewrite app_nil_r. reflexivity.
Qed.
Lemma end_elements_ok : forall tag q k b t, length (fst b) = k -> trans_at t tag q b ->
  trans_at (end_elements k t) tag q ([], contents b) /\ so_ns (t_out (end_elements k t)) = so_ns (t_out t).
Proof.
  intros tag q. induction k as [|k IH]; intros [fs root] t L T; cbn [end_elements].
  - destruct fs; [|discriminate]. split; [|reflexivity]. unfold contents. cbn [fst snd completed]. rewrite app_nil_r. exact T.
  - destruct fs as [|f r]; [discriminate|]. unfold contents. cbn [fst snd]. rewrite completed_add.
    destruct T as (w & Hw & W & O & D). destruct (end_ok tag q f r root w W) as (w' & E' & W').
    assert (T1 : trans_at (fst (add_end_element t)) tag q (add_kid (r, root) (finished f)) /\ so_ns (t_out (fst (add_end_element t))) = so_ns (t_out t)).
    { unfold add_end_element, result_w. rewrite O, Hw, E'. cbn [fst snd]. split; [|reflexivity]. exists w'. cbn [so_w t_out with_w t_outputting t_depth].
      split; [reflexivity|]. split; [exact W'|]. split; [reflexivity|]. rewrite length_kid. cbn [fst length] in *. lia. }
    destruct T1 as [T1 N1]. destruct (IH (add_kid (r, root) (finished f)) (fst (add_end_element t))) as [T2 N2].
    + rewrite length_kid. cbn in *. lia.
    + exact T1.
    + split; [exact T2|]. rewrite N2. exact N1.
Qed.
