(** What the parser delivers, written inside a document, is read back element by element. *)
From Verif Require Import Base Text_Model Text_Spec Text_Proofs Text_Proofs3 Api_Model Api_Spec Writer_Model Writer_Spec Archive_Model Archive_Spec Root_Model Root_Spec Root_Proofs Source_Model Source_Spec Source_Proofs Source_Proofs2 Whole_Spec.
Local Open Scope N_scope.

Definition uri_in (pre : nat -> bytes) (sc : scope) (i : nat) : option bytes := lookup_ns (prefix_opt (pre i)) sc.
Lemma forest_told : forall ts s, shows ts s -> forall pre sc,
  (forall i, any_uses i ts -> prefix_name (pre i)) -> lookup_ns (prefix_opt (pre 0%nat)) sc = Some SRC_URI ->
  exists b, told (uri_in pre sc) ts b /\ (forall t l, extract_events t (b ++ l) = extract_events (t ++ s) l) /\
    forall m st rest l, reads ((m, sc) :: st) rest l -> reads ((m, sc) :: st) (flat_map (tree_xml pre) ts ++ rest) (b ++ l).
Proof.
  induction 1 as [|x ts r F H IH|c ts r L H IH|i n al ts r Nn En Ne Fa H IH|i n al pl kids k ts r Nn En Ne Fa HK IHK H IH]; intros pre sc U SRC0.
  - exists []. split; [constructor|]. split; [intros; rewrite app_nil_r; reflexivity|]. intros m st rest l R. exact R.
  - destruct (IH pre sc (fun i V => U i (or_intror V)) SRC0) as (b & T & X & R).
    exists (map (fun c => XChars [c]) x ++ b). split; [constructor; exact T|]. split.
    + intros t l. rewrite <- app_assoc, text_extract, X, app_assoc. reflexivity.
    + intros m st rest l R0. cbn [flat_map tree_xml]. rewrite <- !app_assoc. apply text_reads; [exact F|apply R, R0].
  - destruct (IH pre sc (fun i V => U i (or_intror V)) SRC0) as (b & T & X & R).
    assert (P0 : prefix_name (pre 0%nat)) by (apply U; left; reflexivity).
    destruct (prefixed_ns (pre 0%nat) (txt "escape") P0) as (Q & E & NN).
    { split; [split; [discriminate|repeat (constructor; [unfold name_byte; vm_compute; repeat split; discriminate|]); constructor]|]. intros K. vm_compute in K. repeat (destruct K as [K|K]; [discriminate K|]). destruct K. }
    { split; discriminate. }
    exists (XStart (txt "escape") (uri_in pre sc 0) (sax_attributes [(txt "char", control_value c)]) :: XEnd :: b). split; [constructor; exact T|]. split.
    + intros t l. cbn [app extract_events]. unfold uri_in. rewrite SRC0.
      change (sax_attributes [(txt "char", control_value c)]) with [(txt "char", control_value c)].
      cbn [extract_event]. change (beqb (txt "escape") (txt "escape")) with true. change (beqb SRC_URI SRC_URI) with true. cbv iota. cbn [obind].
      rewrite (control_read c L). cbn [extract_events extract_event obind]. rewrite X, <- app_assoc. reflexivity.
    + intros m st rest l R0. cbn [flat_map tree_xml]. rewrite <- !app_assoc. rewrite !(app_assoc [60]), (app_assoc _ (attrs _)). rewrite <- (app_assoc [60]).
      pose proof (rd_empty m sc st _ _ _ _ _ _ _ (fine_tag _ _ Q (control_value_fine c L)) E NN (R m st rest l R0)) as RR.
      unfold start_event in RR. fold (prefix_opt (pre 0%nat)) in RR. rewrite (fine_scope _ (control_value_fine c L)) in RR. exact RR.
  - destruct (IH pre sc (fun i V => U i (or_intror V)) SRC0) as (b & T & X & R).
    destruct (prefixed_ns (pre i) n (U i (or_introl eq_refl)) Nn En) as (Q & E & NN).
    exists (XStart n (uri_in pre sc i) (sax_attributes al) :: XEnd :: b). split; [constructor; exact T|]. split.
    + intros t l. pose proof (not_escape n (prefix_opt (pre i)) al sc (XEnd :: b ++ l) t Ne) as NE. unfold start_event in NE. rewrite (fine_scope _ Fa) in NE.
      cbn [app] in NE |- *. unfold uri_in. rewrite NE. cbn [extract_events extract_event obind]. apply X.
    + intros m st rest l R0. cbn [flat_map tree_xml]. rewrite <- !app_assoc. rewrite !(app_assoc [60]), (app_assoc _ (attrs _)). rewrite <- (app_assoc [60]).
      pose proof (rd_empty m sc st _ _ _ _ _ _ _ (fine_tag _ _ Q Fa) E NN (R m st rest l R0)) as RR.
      unfold start_event in RR. fold (prefix_opt (pre i)) in RR. rewrite (fine_scope _ Fa) in RR. exact RR.
  - destruct (IH pre sc (fun i V => U i (or_intror V)) SRC0) as (b & T & X & R).
    destruct (prefixed_ns (pre i) n (U i (or_introl (or_introl eq_refl))) Nn En) as (Q & E & NN).
    assert (UK : forall j, any_uses j kids -> prefix_name (pre j)).
    { intros j V. apply U. left. right. clear -V. induction kids as [|t kids IHk]; [exact V|]. destruct V as [V|V]; [left; exact V|right; apply IHk, V]. }
    destruct (IHK pre sc UK SRC0) as (bk & TK & XK & RK).
    exists (XStart n (uri_in pre sc i) (sax_attributes (al ++ pl)) :: bk ++ XEnd :: b). split; [constructor; assumption|]. split.
    + intros t l. pose proof (not_escape n (prefix_opt (pre i)) (al ++ pl) sc ((bk ++ XEnd :: b) ++ l) t Ne) as NE. unfold start_event in NE. rewrite (fine_scope _ Fa) in NE.
      cbn [app] in NE |- *. unfold uri_in. rewrite NE, <- app_assoc, XK. cbn [app extract_events extract_event obind]. rewrite X, app_assoc. reflexivity.
    + intros m st rest l R0. destruct kids as [|t0 kids'].
      * inversion TK; subst bk. cbn [flat_map tree_xml]. rewrite <- !app_assoc. rewrite (app_assoc (attrs al) (attrs pl)), <- attrs_app. rewrite !(app_assoc [60]), (app_assoc _ (attrs _)). rewrite <- (app_assoc [60]).
        pose proof (rd_empty m sc st _ _ _ _ _ _ _ (fine_tag _ _ Q Fa) E NN (R m st rest l R0)) as RR.
        unfold start_event in RR. fold (prefix_opt (pre i)) in RR. rewrite (fine_scope _ Fa) in RR. exact RR.
      * set (ks := t0 :: kids') in *.
        assert (E0 : flat_map (tree_xml pre) (TreeElem i n al (attrs pl) ks :: ts) ++ rest =
          ([60] ++ prefixed (pre i) n ++ attrs (al ++ pl)) ++ [62] ++ flat_map (tree_xml pre) ks ++ txt "</" ++ prefixed (pre i) n ++ [62] ++ flat_map (tree_xml pre) ts ++ rest).
        { cbn [flat_map]. change (tree_xml pre (TreeElem i n al (attrs pl) ks)) with
            ([60] ++ prefixed (pre i) n ++ attrs al ++ attrs pl ++ [62] ++ flat_map (tree_xml pre) ks ++ txt "</" ++ prefixed (pre i) n ++ [62]).
          rewrite attrs_app, <- !app_assoc. reflexivity. }
        rewrite E0. pose proof (rd_end (prefixed (pre i) n) sc _ _ _ (R m st rest l R0)) as RE. apply RK in RE.
        assert (RS : reads ((prefixed (pre i) n, sax_namespaces (al ++ pl) ++ sc) :: (m, sc) :: st)
           (flat_map (tree_xml pre) ks ++ txt "</" ++ prefixed (pre i) n ++ [62] ++ flat_map (tree_xml pre) ts ++ rest) (bk ++ XEnd :: b ++ l))
          by (rewrite (fine_scope _ Fa); exact RE).
        pose proof (rd_start m sc st _ _ _ _ _ _ _ (fine_tag _ _ Q Fa) E NN RS) as RR.
        unfold start_event in RR. fold (prefix_opt (pre i)) in RR. rewrite (fine_scope _ Fa) in RR. 
        assert (EQ : forall e : xml_event, (e :: bk ++ XEnd :: b) ++ l = e :: bk ++ XEnd :: b ++ l) by (intros e; cbn [app]; rewrite <- app_assoc; reflexivity).
        rewrite EQ. exact RR.
Qed.
