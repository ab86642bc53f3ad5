(** C32: whole formats and the queries. *)
From Verif Require Import Base Text_Model Text_Spec Text_Proofs Text_Proofs2 Text_Proofs3 Writer_Model Writer_Spec Writer_Proofs2 Writer_Proofs4 Writer_Proofs10
  Input_Model Input_Spec Input_Proofs Input_Proofs2 Pretty_Model Pretty_Spec Pretty_Proofs.

(** * Splitting *)
Lemma nth_at (a : bytes) x b d : nth (length a) (a ++ x :: b) d = x.
Proof. rewrite app_nth2, Nat.sub_diag by lia. reflexivity. Qed.
Lemma strchr_here a c b : no_byte c a -> strchr (a ++ c :: b) c = Some (length a).
Proof. intros F. rewrite (strchr_over a c _ F). cbn [strchr]. rewrite N.eqb_refl. cbn [option_map]. f_equal. lia. Qed.
Lemma sub_front (a b : bytes) : substr (a ++ b) 0 (Some (length a)) = a.
Proof. cbn [substr skipn]. rewrite firstn_app, firstn_all, Nat.sub_diag. cbn [firstn]. apply app_nil_r. Qed.
Lemma sub_mid (a b c : bytes) n m : n = length a -> m = length b -> substr (a ++ b ++ c) n (Some m) = b.
Proof. intros -> ->. cbn [substr]. rewrite skipn_app, skipn_all, Nat.sub_diag. cbn [app skipn]. rewrite firstn_app, firstn_all, Nat.sub_diag. cbn [firstn]. apply app_nil_r. Qed.
Lemma sub_end (a b : bytes) n : n = length a -> substr (a ++ b) n None = b.
Proof. intros ->. cbn [substr]. rewrite skipn_app, skipn_all, Nat.sub_diag. reflexivity. Qed.
Lemma no_brace_app a b : no_brace a -> no_brace b -> no_brace (a ++ b).
Proof. intros [A1 A2] [B1 B2]. split; apply Forall_app; split; assumption. Qed.
Lemma no_brace_one x : x <> 123%N -> x <> 125%N -> no_brace [x].
Proof. intros A B. split; repeat constructor; assumption. Qed.
(** With all three sections; [x], [y], [z] and [w] separate them. *)
Lemma split_three stray h x y b z w f : no_brace (h ++ [x; y] ++ b ++ [z]) -> x <> 37%N -> z <> 37%N ->
  split_sections stray (h ++ [x; 123; y]%N ++ b ++ [z; 125; w]%N ++ f) = Ok (Template (Some h) (Some b) (Some f)).
Proof.
  intros [N1 N2] X Z. unfold split_sections.
  assert (A1 : no_byte 123 (h ++ [x])) by (apply Forall_app in N1; destruct N1 as [P Q]; apply Forall_app; split; [exact P|repeat constructor; exact (Forall_inv Q)]).
  assert (A2 : no_byte 125 ((h ++ [x; 123; y]%N) ++ b ++ [z])).
  { apply Forall_app in N2. destruct N2 as [P Q]. apply Forall_app in Q. destruct Q as [Q R]. apply Forall_app. split; [apply Forall_app; split; [exact P|]|exact R].
    constructor; [exact (Forall_inv Q)|]. constructor; [discriminate|]. constructor; [exact (Forall_inv (Forall_inv_tail Q))|constructor]. }
  set (t := h ++ [x; 123; y]%N ++ b ++ [z; 125; w]%N ++ f).
  assert (T1 : t = (h ++ [x]) ++ 123%N :: (y :: b ++ [z; 125; w]%N ++ f)) by (unfold t; rewrite <- app_assoc; reflexivity).
  assert (T2 : t = ((h ++ [x; 123; y]%N) ++ b ++ [z]) ++ 125%N :: (w :: f)) by (unfold t; rewrite <- !app_assoc; reflexivity).
  assert (H1 : strchr t 123 = Some (S (length h))) by (rewrite T1, (strchr_here _ _ _ A1), app_length; cbn [length]; f_equal; lia).
  assert (H2 : strchr t 125 = Some (S (length h + 3 + length b))) by (rewrite T2, (strchr_here _ _ _ A2), !app_length; cbn [length]; f_equal; lia).
  rewrite H1, H2. cbn [brace_seen].
  replace (nth (length h + 3 + length b) t 0%N) with z.
  2:{ replace t with (((h ++ [x; 123; y]%N) ++ b) ++ z :: ([125; w]%N ++ f)) by (unfold t; rewrite <- !app_assoc; reflexivity).
      replace (length h + 3 + length b) with (length ((h ++ [x; 123; y]%N) ++ b)) by (rewrite !app_length; cbn [length]; lia). rewrite nth_at. reflexivity. }
  apply N.eqb_neq in Z. rewrite Z. cbn [obind brace_seen].
  replace (nth (length h) t 0%N) with x by (unfold t; cbn [app]; rewrite nth_at; reflexivity).
  apply N.eqb_neq in X. rewrite X. cbn [obind].
  replace (S (length h) + 2 <=? S (length h + 3 + length b)) with true by (symmetry; apply Nat.leb_le; lia).
  replace (S (length h + 3 + length b) - S (length h) <? 3) with false by (symmetry; apply Nat.ltb_ge; lia).
  replace (length t <? S (length h + 3 + length b) + 2) with false by (symmetry; apply Nat.ltb_ge; unfold t; rewrite !app_length; cbn [length]; lia).
  f_equal. f_equal; f_equal.
  - unfold t. apply sub_front.
  - unfold t. rewrite app_assoc. apply sub_mid; [rewrite app_length; cbn [length]; lia|lia].
  - replace t with (((h ++ [x; 123; y]%N) ++ b ++ [z; 125; w]%N) ++ f) by (unfold t; rewrite <- !app_assoc; reflexivity). apply sub_end. rewrite !app_length. cbn [length]. lia.
Qed.
(** Without a header. *)
Lemma split_two stray y b z w f : no_brace ([y] ++ b ++ [z]) -> z <> 37%N ->
  split_sections stray ([123; y]%N ++ b ++ [z; 125; w]%N ++ f) = Ok (Template None (Some b) (Some f)).
Proof.
  intros [N1 N2] Z. unfold split_sections. set (t := [123; y]%N ++ b ++ [z; 125; w]%N ++ f).
  assert (A2 : no_byte 125 ([123%N; y] ++ b ++ [z])).
  { cbn [app] in N2. cbn [app]. constructor; [discriminate|exact N2]. }
  assert (T2 : t = ([123%N; y] ++ b ++ [z]) ++ 125%N :: (w :: f)) by (unfold t; rewrite <- !app_assoc; reflexivity).
  assert (H1 : strchr t 123 = Some 0) by reflexivity.
  assert (H2 : strchr t 125 = Some (S (2 + length b))) by (rewrite T2, (strchr_here _ _ _ A2), !app_length; cbn [length]; f_equal; lia).
  rewrite H1, H2. cbn [brace_seen].
  replace (nth (2 + length b) t 0%N) with z.
  2:{ replace t with (([123; y]%N ++ b) ++ z :: ([125; w]%N ++ f)) by (unfold t; rewrite <- !app_assoc; reflexivity).
      replace (2 + length b) with (length ([123; y]%N ++ b)) by reflexivity. rewrite nth_at. reflexivity. }
  apply N.eqb_neq in Z. rewrite Z. cbn [obind brace_seen].
  replace (0 + 2 <=? S (2 + length b)) with true by (symmetry; apply Nat.leb_le; lia).
  replace (S (2 + length b) - 0 <? 3) with false by (symmetry; apply Nat.ltb_ge; lia).
  replace (length t <? S (2 + length b) + 2) with false by (symmetry; apply Nat.ltb_ge; unfold t; rewrite !app_length; cbn [length]; lia).
  f_equal. f_equal; f_equal.
  - unfold t. apply sub_mid; [reflexivity|lia].
  - replace t with (([123; y]%N ++ b ++ [z; 125; w]%N) ++ f) by (unfold t; rewrite <- !app_assoc; reflexivity). apply sub_end. rewrite !app_length. cbn [length]. lia.
Qed.
(** Without braces: only a body, as long as the byte read outside of it is no percent sign. *)
Lemma strchr_absent c t : no_byte c t -> strchr t c = None.
Proof. intros F. pose proof (strchr_over t c [] F) as E. rewrite app_nil_r in E. exact E. Qed.
Lemma split_one stray b : no_brace b -> stray <> 37%N -> split_sections stray b = Ok (Template None (Some b) None).
Proof. intros [N1 N2] S. unfold split_sections. rewrite (strchr_absent _ _ N1), (strchr_absent _ _ N2). cbn [brace_seen]. apply N.eqb_neq in S. rewrite !S. cbn [obind brace_seen]. rewrite ?S. reflexivity. Qed.
Lemma split_stray b : no_brace b -> split_sections 37 b = UB.
Proof. intros [N1 N2]. unfold split_sections. rewrite (strchr_absent _ _ N1), (strchr_absent _ _ N2). reflexivity. Qed.
(** "%{" and "%}". *)
Lemma erase_here a x b : erase_at (length a) (a ++ x :: b) = a ++ b.
Proof.
  unfold erase_at. rewrite firstn_app, firstn_all, Nat.sub_diag. cbn [firstn]. rewrite app_nil_r. f_equal.
  rewrite skipn_app, (skipn_all2 a) by lia. replace (S (length a) - length a) with 1 by lia. reflexivity.
Qed.
Lemma split_escaped stray a b c : no_brace a -> no_brace b ->
  split_sections stray (a ++ txt "%{" ++ b ++ txt "%}" ++ c) = Ok (Template None (Some (a ++ txt "{" ++ b ++ txt "}" ++ c)) None).
Proof.
  intros [A1 A2] [B1 B2]. unfold split_sections. set (t := a ++ txt "%{" ++ b ++ txt "%}" ++ c).
  assert (H1 : strchr t 123 = Some (S (length a))).
  { replace t with ((a ++ [37%N]) ++ 123%N :: (b ++ txt "%}" ++ c)) by (unfold t; rewrite <- app_assoc; reflexivity). rewrite strchr_here; [rewrite app_length; cbn [length]; f_equal; lia|]. apply Forall_app. split; [exact A1|repeat constructor; discriminate]. }
  assert (H2 : strchr t 125 = Some (S (length (a ++ txt "%{" ++ b)))).
  { replace t with ((a ++ txt "%{" ++ b ++ [37%N]) ++ 125%N :: c) by (unfold t; rewrite <- !app_assoc; reflexivity). rewrite strchr_here; [rewrite !app_length; cbn [length]; f_equal; lia|].
    apply Forall_app. split; [exact A2|]. apply Forall_app. split; [vm_compute; repeat constructor; discriminate|]. apply Forall_app. split; [exact B2|repeat constructor; discriminate]. }
  rewrite H1, H2. cbn [brace_seen].
  assert (T : t = (a ++ txt "%{" ++ b) ++ 37%N :: (125%N :: c)) by (unfold t; rewrite <- !app_assoc; reflexivity).
  rewrite T, nth_at. change (37 =? 37)%N with true. cbn [obind brace_seen]. rewrite erase_here.
  assert (T' : (a ++ txt "%{" ++ b) ++ 125%N :: c = a ++ 37%N :: (123%N :: b ++ 125%N :: c)) by (rewrite <- !app_assoc; reflexivity).
  cbv iota. cbn [obind brace_seen]. rewrite T', nth_at. change (37 =? 37)%N with true. cbv iota. rewrite erase_here. reflexivity.
Qed.

(** * The whole *)
Lemma ok_more small large l : (forall c, In c small -> In c large) -> fitems_ok small l -> fitems_ok large l.
Proof.
  intros H. induction l as [|i r IH]; intros O; [exact Logic.I|]. destruct O as [O Or]. split; [|exact (IH Or)].
  destruct i as [s| |c|p]; cbn [fitem_ok] in *; try exact O; (split; [apply H, O|apply O]).
Qed.
Ltac each I := repeat (destruct I as [<-|I]; [try reflexivity|]); try destruct I.
Lemma sub_header : forall c, In c archive_fields -> In c header_args. Proof. intros c I. cbn in I. each I; vm_compute; tauto. Qed.
Lemma sub_body : forall c, In c unit_fields -> In c body_args. Proof. intros c I. cbn in I. each I; vm_compute; tauto. Qed.
Lemma sub_footer : forall c, In c total_fields -> In c footer_args. Proof. intros c I. cbn in I. each I; vm_compute; tauto. Qed.
Lemma fields_in small l : fitems_ok small l -> forall i, In i l -> match i with FField c => In c small /\ c <> 78%N | FSpaces _ => In 78%N small | _ => True end.
Proof. induction l as [|i r IH]; intros O j I; [destruct I|]. destruct O as [O Or]. destruct I as [<-|I]; [|exact (IH Or j I)]. destruct i; cbn [fitem_ok] in O; try exact Logic.I; [split; apply O|apply O]. Qed.
Lemma header_prints a l : ma_namespaces a <> [] -> section_ok archive_fields l ->
  print_section (fmt (length (ma_namespaces a)) l) (header_params a (map arg_of (fields l))) = Ok (section_shows (archive_value a) no_spaces l).
Proof.
  intros Nn O. unfold header_params.
  assert (Nn' : 0 < length (ma_namespaces a)) by (destruct (ma_namespaces a); [contradiction Nn; reflexivity|cbn; lia]).
  apply (section_prints archive_fields (length (ma_namespaces a)) l (archive_value a) no_spaces (fun many arg => param many (acquire a None arg)) Nn' O).
  - intros p I. exfalso. cbn in I. repeat (destruct I as [I|I]; [discriminate I|]). exact I.
  - intros many c I _. f_equal. cbn in I. each I.
  - intros many p I. exfalso. cbn in I. repeat (destruct I as [I|I]; [discriminate I|]). exact I.
Qed.
Lemma footer_prints a l : ma_namespaces a <> [] -> section_ok total_fields l ->
  print_section (fmt (length (ma_namespaces a)) l) (footer_params a (length (ma_units a)) (map arg_of (fields l))) = Ok (section_shows (total_value a) no_spaces l).
Proof.
  intros Nn O. unfold footer_params.
  assert (Nn' : 0 < length (ma_namespaces a)) by (destruct (ma_namespaces a); [contradiction Nn; reflexivity|cbn; lia]).
  apply (section_prints total_fields (length (ma_namespaces a)) l (total_value a) no_spaces (fun many arg => if beqb arg (txt "C") then [dec_of (N.of_nat (length (ma_units a)))] else param many (acquire a None arg)) Nn' O).
  - intros p I. exfalso. cbn in I. repeat (destruct I as [I|I]; [discriminate I|]). exact I.
  - intros many c I _. cbn in I. each I.
  - intros many p I. exfalso. cbn in I. repeat (destruct I as [I|I]; [discriminate I|]). exact I.
Qed.
Lemma body_prints a u i l : ma_namespaces a <> [] -> section_ok unit_fields l ->
  print_section (fmt (length (ma_namespaces a)) l) (body_params a u i (map arg_of (fields l))) = Ok (section_shows (unit_value a u i) (space_values a) l).
Proof.
  intros Nn O. unfold body_params.
  assert (Nn' : 0 < length (ma_namespaces a)) by (destruct (ma_namespaces a); [contradiction Nn; reflexivity|cbn; lia]).
  apply (section_prints unit_fields (length (ma_namespaces a)) l (unit_value a u i) (space_values a) (fun many arg =>
    if beqb arg (txt "i") then [dec_of (N.of_nat i)]
    else if beqb arg (txt "N") then map (fun n : bytes * bytes => (match fst n with [] => txt "xmlns=" | p => txt "xmlns:" ++ p ++ txt "=" end) ++ snd n) (ma_namespaces a)
    else if beqb arg (txt "N:u") then map snd (ma_namespaces a)
    else if beqb arg (txt "N:p") then map fst (ma_namespaces a)
    else param many (acquire a (Some u) arg)) Nn' O).
  - intros p _. apply map_length.
  - intros many c I Q. cbn in I. each I. contradiction Q. reflexivity.
  - intros many p _. destruct p; cbn; unfold space_values; apply map_ext; intros [[|c p] uri]; try reflexivity. cbn. rewrite <- !app_assoc. cbn. reflexivity.
Qed.
Lemma units_print a l : ma_namespaces a <> [] -> section_ok unit_fields l -> forall us i,
  print_units a (fmt (length (ma_namespaces a)) l) (map arg_of (fields l)) i us = Ok (each_unit a l i us).
Proof.
  intros Nn O. induction us as [|u us IH]; intros i; [reflexivity|]. cbn [print_units each_unit]. rewrite (body_prints a u i l Nn O). cbn [obind]. rewrite IH. reflexivity.
Qed.
Lemma ns_pos a : ma_namespaces a <> [] -> 0 < length (ma_namespaces a).
Proof. destruct (ma_namespaces a); [intros K; contradiction K; reflexivity|cbn; lia]. Qed.
Lemma pretty_whole stray a only xml h x y b z w f : only = 0 \/ xml = true -> ma_namespaces a <> [] -> ma_units a <> [] \/ f = [] ->
  section_ok archive_fields h -> section_ok unit_fields b -> section_ok total_fields f ->
  no_brace (frender h ++ [x; y] ++ frender b ++ [z]) -> x <> 37%N -> z <> 37%N ->
  pretty stray a only xml (frender h ++ [x; 123; y]%N ++ frender b ++ [z; 125; w]%N ++ frender f) =
  Ok (Printed (section_shows (archive_value a) no_spaces h ++ each_unit a b 0 (ma_units a) ++ section_shows (total_value a) no_spaces f)).
Proof.
  intros Sk Nn Nu Oh Ob Of Nb X Z. pose proof (ns_pos a Nn) as Np. unfold pretty. rewrite (split_three stray _ x y _ z w _ Nb X Z). cbn [obind tm_header tm_body tm_footer parse_optional].
  rewrite (parse_ok header_args _ h Np (ok_more _ _ _ sub_header (proj1 Oh))). rewrite (parse_ok body_args _ b Np (ok_more _ _ _ sub_body (proj1 Ob))).
  rewrite (parse_ok footer_args _ f Np (ok_more _ _ _ sub_footer (proj1 Of))). unfold display. cbn [display_section].
  rewrite (header_prints a h Nn Oh). cbn [obind]. replace ((0 <? only) && negb xml) with false by (destruct Sk as [-> | ->]; [reflexivity|rewrite andb_false_r; reflexivity]).
  rewrite (units_print a b Nn Ob). cbn [obind]. destruct Nu as [Nu| ->]; [|reflexivity].
  replace (S (length (ma_units a) - 1)) with (length (ma_units a)) by (destruct (ma_units a); [contradiction Nu; reflexivity|cbn; lia]).
  rewrite (footer_prints a f Nn Of). reflexivity.
Qed.
Lemma pretty_body stray a only xml b : only = 0 \/ xml = true -> ma_namespaces a <> [] -> section_ok unit_fields b -> no_brace (frender b) -> stray <> 37%N ->
  pretty stray a only xml (frender b) = Ok (Printed (each_unit a b 0 (ma_units a))).
Proof.
  intros Sk Nn Ob Nb St. pose proof (ns_pos a Nn) as Np. unfold pretty. rewrite (split_one stray _ Nb St). cbn [obind tm_header tm_body tm_footer parse_optional].
  rewrite (parse_ok body_args _ b Np (ok_more _ _ _ sub_body (proj1 Ob))). unfold display. cbn [display_section obind].
  replace ((0 <? only) && negb xml) with false by (destruct Sk as [-> | ->]; [reflexivity|rewrite andb_false_r; reflexivity]).
  rewrite (units_print a b Nn Ob). cbn [obind app]. rewrite app_nil_r. reflexivity.
Qed.
(** With a unit asked for. *)
Lemma pretty_skips stray a only b : 0 < only -> ma_namespaces a <> [] -> section_ok unit_fields b -> no_brace (frender b) -> stray <> 37%N ->
  pretty stray a only false (frender b) = Ok (Printed []).
Proof.
  intros Sk Nn Ob Nb St. pose proof (ns_pos a Nn) as Np. unfold pretty. rewrite (split_one stray _ Nb St). cbn [obind tm_header tm_body tm_footer parse_optional].
  rewrite (parse_ok body_args _ b Np (ok_more _ _ _ sub_body (proj1 Ob))). unfold display. cbn [display_section obind].
  replace (0 <? only) with true by (symmetry; apply Nat.ltb_lt; exact Sk). reflexivity.
Qed.

(** * The loop ends *)
Fixpoint weight (ns : nat) (t : bytes) : nat :=
  match t with
  | [] => 0
  | c :: r => (if (c =? 37)%N then match r with d :: _ => if (d =? 115)%N then 1 else S ns | [] => 1 end else 0) + weight ns r
  end.
Lemma weight_text ns s t : no_byte 37 s -> weight ns (s ++ t) = weight ns t.
Proof. induction s as [|c s IH]; intros F; [reflexivity|]. cbn [app weight]. destruct (N.eqb_spec c 37) as [Q|Q]; [contradiction (Forall_inv F Q)|]. rewrite (IH (Forall_inv_tail F)). reflexivity. Qed.
Lemma weight_expand ns n t : weight ns (expand_ns n ++ t) = n + weight ns t.
Proof.
  induction n as [|n IH]; [reflexivity|]. destruct n as [|n].
  - change (expand_ns 1 ++ t) with (37%N :: 115%N :: t). cbn [weight]. change (37 =? 37)%N with true. change (115 =? 115)%N with true. change (115 =? 37)%N with false. cbv iota. lia.
  - change (expand_ns (S (S n)) ++ t) with (37%N :: 115%N :: 32%N :: (expand_ns (S n) ++ t)). cbn [weight]. change (37 =? 37)%N with true. change (115 =? 115)%N with true. change (115 =? 37)%N with false. change (32 =? 37)%N with false. cbv iota. lia.
Qed.
Lemma weight_tail ns c t : weight ns t <= weight ns (c :: t).
Proof. cbn [weight]. lia. Qed.
Lemma weight_variant ns r : weight ns (snd (ns_variant r)) <= weight ns r.
Proof.
  destruct (begins_dec2 r 58 117) as [[m ->]|A]; [|destruct (begins_dec2 r 58 112) as [[m ->]|B]].
  - destruct (begins_dec2 m 58 112) as [[m' ->]|B].
    + change (weight ns m' <= weight ns (58%N :: 117%N :: 58%N :: 112%N :: m')). cbn [weight N.eqb Pos.eqb]. lia.
    + change ([58%N; 117%N] ++ m) with (txt ":u" ++ m). rewrite (variant_uri m B). cbn [snd]. change (weight ns m <= weight ns (58%N :: 117%N :: m)). cbn [weight N.eqb Pos.eqb]. lia.
  - change (weight ns m <= weight ns (58%N :: 112%N :: m)). cbn [weight N.eqb Pos.eqb]. lia.
  - rewrite (variant_plain r A B). cbn [snd]. lia.
Qed.
Lemma parse_ends allowed ns : forall fuel pre rest args, weight ns rest < fuel -> parse_section fuel allowed ns pre rest args <> NoFuel.
Proof.
  induction fuel as [|fuel IH]; intros pre rest args L; [lia|]. cbn [parse_section]. destruct (strchr rest 37) as [p|] eqn:E; [|discriminate].
  assert (R : exists a r, rest = a ++ 37%N :: r /\ length a = p /\ no_byte 37 a).
  { clear -E. revert p E. induction rest as [|c rest IH]; intros p E; [discriminate E|]. cbn [strchr] in E. destruct (N.eqb_spec c 37) as [->|Q].
    - injection E as <-. exists [], rest. repeat split. constructor.
    - destruct (strchr rest 37) as [q|]; [|discriminate E]. injection E as <-. destruct (IH q eq_refl) as [a [r [-> [<- F]]]]. exists (c :: a), r. repeat split. constructor; [exact Q|exact F]. }
  destruct R as [a [r [-> [<- Fa]]]]. clear E. rewrite (weight_text ns a _ Fa) in L.
  replace (skipn (S (length a)) (a ++ 37%N :: r)) with r by (rewrite skipn_app, (skipn_all2 a) by lia; replace (S (length a) - length a) with 1 by lia; reflexivity).
  destruct r as [|c r]; [discriminate|]. cbn [weight] in L. change (37 =? 37)%N with true in L. cbv iota in L.
  destruct ((c =? 37)%N || (c =? 115)%N) eqn:C.
  - apply IH. change (weight ns (c :: r) < fuel). cbn [weight]. destruct (c =? 115)%N; lia.
  - apply orb_false_iff in C. destruct C as [C1 C2]. rewrite C1, C2 in L. destruct (negb (existsb (N.eqb c) allowed)); [discriminate|].
    destruct (c =? 78)%N.
    + pose proof (weight_variant ns r) as V. destruct (ns_variant r) as [arg r']. cbn [snd] in V. apply IH.
      assert (K : weight ns (skipn 1 (expand_ns ns ++ r')) <= ns + weight ns r').
      { rewrite <- (weight_expand ns ns r'). destruct (expand_ns ns ++ r') as [|d m]; [cbn; lia|]. cbn [skipn]. apply weight_tail. }
      lia.
    + apply IH. change (skipn 1 (txt "%s" ++ r)) with ([115%N] ++ r). rewrite weight_text by (repeat constructor; discriminate). lia.
Qed.
Lemma weight_bound ns t : weight ns t <= length t * S ns.
Proof. induction t as [|c t IH]; [cbn; lia|]. cbn [weight length]. destruct (c =? 37)%N; [|lia]. destruct t as [|d t']; [lia|]. destruct (d =? 115)%N; lia. Qed.
Lemma never_no_fuel allowed ns t : parse_template allowed ns t <> NoFuel.
Proof. apply parse_ends. pose proof (weight_bound ns t). lia. Qed.

(** * The queries *)
Definition query_items (one : bool) (name : bytes) (field : N) (asked : bool) : list fitem :=
  if asked then (if one then [FField field; FText [10%N]] else [FText (name ++ txt "="""); FField field; FText [34%N; 10%N]]) else [].
Lemma query_render one name c asked : query one name c asked = frender (query_items one name c asked).
Proof. unfold query, query_items. destruct asked; [destruct one|reflexivity]; [reflexivity|]. unfold frender. cbn [map concat frender_item]. rewrite <- !app_assoc. reflexivity. Qed.
Lemma frender_app l m : frender (l ++ m) = frender l ++ frender m.
Proof. unfold frender. rewrite map_app, concat_app. reflexivity. Qed.
(** Items that are right whatever follows. *)
Definition free_item (allowed : bytes) (i : fitem) : Prop := match i with FText s => s <> [] /\ no_byte 37 s | FField c => In c allowed /\ c <> 37%N /\ c <> 115%N /\ c <> 78%N | _ => False end.
Lemma free_ok allowed l : Forall (free_item allowed) l -> fitems_ok allowed l.
Proof. induction 1 as [|i r F _ IH]; [exact Logic.I|]. split; [|exact IH]. destruct i; try exact F; destruct F. Qed.
Lemma query_free allowed one name c asked : no_byte 37 name -> In c allowed -> c <> 37%N -> c <> 115%N -> c <> 78%N -> Forall (free_item allowed) (query_items one name c asked).
Proof.
  intros F I A B C. unfold query_items. destruct asked; [destruct one|constructor].
  - constructor; [repeat split; assumption|]. constructor; [split; [discriminate|repeat constructor; discriminate]|constructor].
  - constructor; [split; [destruct name; discriminate|apply Forall_app; split; [exact F|repeat constructor; discriminate]]|]. constructor; [repeat split; assumption|]. constructor; [split; [discriminate|repeat constructor; discriminate]|constructor].
Qed.
Lemma query_fields one name c asked : fields (query_items one name c asked) = if asked then [FField c] else [].
Proof. destruct asked; [destruct one|]; reflexivity. Qed.
Lemma fields_app l m : fields (l ++ m) = fields l ++ fields m.
Proof. unfold fields. apply filter_app. Qed.
Definition header_items (q : queries) : list fitem := let one := count_queries q =? 1 in query_items one (txt "encoding") 88 (q_encoding q) ++ query_items one (txt "url") 85 (q_url q).
Definition body_items (q : queries) : list fitem :=
  let one := count_queries q =? 1 in
  query_items one (txt "filename") 102 (q_filename q) ++ query_items one (txt "language") 108 (q_language q) ++ query_items one (txt "version") 118 (q_version q) ++
  query_items one (txt "hash") 104 (q_hash q) ++ query_items one (txt "timestamp") 116 (q_timestamp q).
Ltac lits := vm_compute; repeat constructor; discriminate.
Lemma header_items_ok q : section_ok archive_fields (header_items q) /\ frender (header_items q) = query_header q /\ no_brace (query_header q).
Proof.
  split; [split|split].
  - apply free_ok. unfold header_items. cbv zeta. repeat (apply Forall_app; split); (apply query_free; [lits|vm_compute; tauto|discriminate..]).
  - unfold header_items. cbv zeta. rewrite fields_app, !query_fields. destruct (q_encoding q), (q_url q); try discriminate; reflexivity.
  - unfold header_items, query_header. cbv zeta. rewrite frender_app, <- !query_render. reflexivity.
  - unfold query_header. destruct (count_queries q =? 1), (q_encoding q), (q_url q); split; lits.
Qed.
Lemma query_no_brace one name c asked : no_brace name -> c <> 123%N -> c <> 125%N -> no_brace (query one name c asked).
Proof.
  intros [A B] C D. unfold query. destruct asked; [|split; constructor]. destruct one; [split; repeat constructor; assumption || discriminate|].
  split; (apply Forall_app; split; [assumption|]); (apply Forall_app; split; [lits|]); repeat constructor; assumption || discriminate.
Qed.
Lemma body_items_ok q : section_ok unit_fields (body_items q) /\ frender (body_items q) = query_body q /\ no_brace (query_body q).
Proof.
  split; [split|split].
  - apply free_ok. unfold body_items. cbv zeta. repeat (apply Forall_app; split); (apply query_free; [lits|vm_compute; tauto|discriminate..]).
  - unfold body_items. cbv zeta. rewrite !fields_app, !query_fields. destruct (q_filename q), (q_language q), (q_version q), (q_hash q), (q_timestamp q); try discriminate; reflexivity.
  - unfold body_items, query_body. cbv zeta. rewrite !frender_app, <- !query_render. reflexivity.
  - unfold query_body. cbv zeta. repeat apply no_brace_app; (apply query_no_brace; [split; lits|discriminate|discriminate]).
Qed.
Lemma shows_app value spaces l m : concat (map (shows value spaces) (l ++ m)) = concat (map (shows value spaces) l) ++ concat (map (shows value spaces) m).
Proof. rewrite map_app, concat_app. reflexivity. Qed.
Lemma query_shows value spaces one name c : concat (map (shows value spaces) (query_items one name c true)) = line one (name, value c).
Proof. unfold query_items, line. destruct one; cbn [map concat shows fst snd]; destruct (value c); cbn [app]; rewrite ?app_nil_r, <- ?app_assoc; reflexivity. Qed.
Definition many_items (one : bool) (qs : list (bytes * N * bool)) : list fitem := concat (map (fun x => query_items one (fst (fst x)) (snd (fst x)) (snd x)) qs).
Definition many_values (value : N -> option bytes) (qs : list (bytes * N * bool)) : list (bytes * option bytes) := map (fun x => (fst (fst x), value (snd (fst x)))) (filter snd qs).
Lemma many_shown value spaces one qs : section_shows value spaces (many_items one qs) = show_lines one (many_values value qs).
Proof.
  assert (F : fields (many_items one qs) = map (fun x => FField (snd (fst x))) (filter snd qs)).
  { induction qs as [|[[n c] b] qs IH]; [reflexivity|]. unfold many_items. cbn [map concat fst snd]. fold (many_items one qs). rewrite fields_app, query_fields, IH. destruct b; reflexivity. }
  assert (C : concat (map (shows value spaces) (many_items one qs)) = concat (map (line one) (many_values value qs))).
  { clear F. induction qs as [|[[n c] b] qs IH]; [reflexivity|]. unfold many_items, many_values. cbn [map concat fst snd filter]. fold (many_items one qs). rewrite shows_app, IH.
    destruct b; [|reflexivity]. rewrite query_shows. reflexivity. }
  unfold section_shows, lone_null, show_lines. rewrite F, C. unfold many_values. destruct (filter snd qs) as [|[[n c] b] [|y r]]; cbn [map fst snd]; try reflexivity.
  - destruct (value c); reflexivity.
  - destruct (value c); reflexivity.
Qed.
Lemma queried_header a q : section_shows (archive_value a) no_spaces (header_items q) = show_lines (count_queries q =? 1) (asked_header a q).
Proof.
  set (qs := [(txt "encoding", 88%N, q_encoding q); (txt "url", 85%N, q_url q)]).
  replace (header_items q) with (many_items (count_queries q =? 1) qs).
  2:{ unfold header_items, many_items, qs. cbv zeta. cbn [map concat fst snd]. rewrite app_nil_r. reflexivity. }
  rewrite many_shown. f_equal. unfold many_values, qs, asked_header. destruct (q_encoding q), (q_url q); reflexivity.
Qed.
Lemma queried_body a q u i : section_shows (unit_value a u i) (space_values a) (body_items q) = show_lines (count_queries q =? 1) (asked_unit q u).
Proof.
  set (qs := [(txt "filename", 102%N, q_filename q); (txt "language", 108%N, q_language q); (txt "version", 118%N, q_version q); (txt "hash", 104%N, q_hash q); (txt "timestamp", 116%N, q_timestamp q)]).
  replace (body_items q) with (many_items (count_queries q =? 1) qs).
  2:{ unfold body_items, many_items, qs. cbv zeta. cbn [map concat fst snd]. rewrite app_nil_r. reflexivity. }
  rewrite many_shown. f_equal. unfold many_values, qs, asked_unit. destruct (q_filename q), (q_language q), (q_version q), (q_hash q), (q_timestamp q); reflexivity.
Qed.
Lemma metadata_shown stray a only xml q : only = 0 \/ xml = true -> ma_namespaces a <> [] ->
  show_metadata stray a only xml q = Ok (Printed (show_lines (count_queries q =? 1) (asked_header a q) ++ concat (map (fun u => show_lines (count_queries q =? 1) (asked_unit q u)) (ma_units a)))).
Proof.
  intros Sk Nn. destruct (header_items_ok q) as [Oh [Rh Nh]], (body_items_ok q) as [Ob [Rb Nb]].
  assert (Each : forall us i, each_unit a (body_items q) i us = concat (map (fun u => show_lines (count_queries q =? 1) (asked_unit q u)) us)).
  { induction us as [|u us IH]; intros i; [reflexivity|]. cbn [each_unit map concat]. rewrite queried_body, IH. reflexivity. }
  unfold show_metadata. destruct (query_header q ++ query_body q) as [|c r] eqn:E.
  - apply app_eq_nil in E. destruct E as [E1 E2]. rewrite <- Rh in E1. rewrite <- Rb in E2. apply (frender_nil _ _ (proj1 Oh)) in E1. apply (frender_nil _ _ (proj1 Ob)) in E2.
    rewrite <- queried_header, <- (Each _ 0), E1, E2. assert (Z : forall us i, each_unit a [] i us = []) by (induction us as [|u us IH]; intros i; [reflexivity|cbn [each_unit]; rewrite IH; reflexivity]). rewrite Z. reflexivity.
  - clear E c r. rewrite <- Rh, <- Rb. change (txt " { ") with [32; 123; 32]%N. replace (txt " } ") with ([32; 125; 32]%N ++ frender []) by reflexivity.
    rewrite (pretty_whole stray a only xml (header_items q) 32 32 (body_items q) 32 32 [] Sk Nn (or_intror eq_refl) Oh Ob).
    + rewrite queried_header, Each. change (section_shows (total_value a) no_spaces []) with (@nil N). rewrite app_nil_r. reflexivity.
    + split; [exact Logic.I|reflexivity].
    + rewrite Rh, Rb. apply no_brace_app; [exact Nh|]. apply no_brace_app; [split; repeat constructor; discriminate|]. apply no_brace_app; [exact Nb|]. split; repeat constructor; discriminate.
    + discriminate.
    + discriminate.
Qed.

(** * Numbers *)
Lemma dec_go_ok : forall f n acc, (n < 10 ^ N.of_nat f)%N -> exists ds, dec_go f n acc = ds ++ acc /\ Forall (fun c => (48 <= c <= 57)%N) ds /\ dec_value ds = n /\ (ds = [] <-> n = 0%N) /\ hd 0%N ds <> 48%N.
Proof.
  induction f as [|f IH]; intros n acc L.
  - assert (n = 0%N) by (change (10 ^ N.of_nat 0)%N with 1%N in L; lia). subst n. exists []. cbn [dec_go app]. repeat split; try constructor. discriminate.
  - cbn [dec_go]. destruct (N.eqb_spec n 0) as [->|Nz].
    + exists []. repeat split; try constructor. discriminate.
    + assert (Lq : (n / 10 < 10 ^ N.of_nat f)%N) by (apply N.div_lt_upper_bound; [lia|]; rewrite Nat2N.inj_succ, N.pow_succ_r' in L; exact L).
      destruct (IH (n / 10)%N (48 + n mod 10 :: acc)%N Lq) as [ds [E [F [V [Z H]]]]]. exists (ds ++ [48 + n mod 10])%N. rewrite E, <- app_assoc. split; [reflexivity|].
      pose proof (N.mod_lt n 10 ltac:(lia)) as M. split; [apply Forall_app; split; [exact F|repeat constructor; lia]|]. split.
      * unfold dec_value in *. rewrite fold_left_app. cbn [fold_left]. rewrite V. pose proof (N.div_mod n 10 ltac:(lia)). lia.
      * split; [split; intros K; [destruct ds; discriminate K|contradiction]|].
        destruct ds as [|d ds]; [|exact H]. cbn [app hd]. pose proof (proj1 Z eq_refl). pose proof (N.div_mod n 10 ltac:(lia)). lia.
Qed.
Lemma dec_of_ok n : (n < 10 ^ 64)%N -> decimal (dec_of n) n.
Proof.
  intros L. unfold dec_of. destruct n as [|p]; [repeat split; try (repeat constructor; lia); try discriminate|].
  destruct (dec_go_ok 64 (N.pos p) [] L) as [ds [E [F [V [Z H]]]]]. change (decimal (dec_go 64 (N.pos p) []) (N.pos p)). rewrite E, app_nil_r. split; [intros K; apply Z in K; discriminate K|]. split; [exact F|]. split; [exact V|]. intros K. contradiction (H K).
Qed.
