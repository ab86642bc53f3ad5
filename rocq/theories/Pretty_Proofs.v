(** C32: metadata formats. *)
From Verif Require Import Base Text_Model Text_Spec Text_Proofs Text_Proofs2 Text_Proofs3 Writer_Model Writer_Spec Writer_Proofs2 Writer_Proofs10
  Input_Model Input_Spec Input_Proofs Input_Proofs2 Pretty_Model Pretty_Spec.

(** * Parsing a section *)
Lemma parse_text allowed ns fuel : forall s pre rest args, no_byte 37 s ->
  parse_section fuel allowed ns pre (s ++ rest) args = parse_section fuel allowed ns (pre ++ s) rest args.
Proof.
  intros s pre rest args F. destruct fuel as [|fuel]; [reflexivity|]. cbn [parse_section]. rewrite (strchr_over s 37%N rest F).
  destruct (strchr rest 37) as [p|]; cbn [option_map]; [|rewrite <- app_assoc; reflexivity].
  replace (skipn (S (length s + p)) (s ++ rest)) with (skipn (S p) rest) by (rewrite skipn_app, (skipn_all2 s) by lia; replace (S (length s + p) - length s) with (S p) by lia; reflexivity).
  rewrite firstn_app, (firstn_all2 s) by lia. replace (length s + p - length s) with p by lia.
  destruct (skipn (S p) rest) as [|c r]; [rewrite <- app_assoc; reflexivity|].
  destruct ((c =? 37)%N || (c =? 115)%N); [rewrite <- !app_assoc; reflexivity|].
  destruct (negb (existsb (N.eqb c) allowed)); [f_equal; rewrite app_length; lia|].
  destruct (if (c =? 78)%N then ns_variant r else ([c], r)) as [arg r']. rewrite <- !app_assoc. reflexivity.
Qed.
Lemma parse_nil allowed ns fuel pre args : 0 < fuel -> parse_section fuel allowed ns pre [] args = Parsed pre args.
Proof. intros L. destruct fuel; [lia|]. cbn [parse_section strchr]. rewrite app_nil_r. reflexivity. Qed.
(** At a percent sign. *)
Lemma parse_at allowed ns fuel pre c r args : parse_section (S fuel) allowed ns pre (37%N :: c :: r) args =
  if (c =? 37)%N || (c =? 115)%N then parse_section fuel allowed ns (pre ++ [37%N]) (c :: r) args
  else if negb (existsb (N.eqb c) allowed) then BadFormat (S (length pre))
  else let '(arg, r') := if (c =? 78)%N then ns_variant r else ([c], r) in
       let text := (if (c =? 78)%N then expand_ns ns else txt "%s") ++ r' in
       parse_section fuel allowed ns (pre ++ firstn 1 text) (skipn 1 text) (args ++ [arg]).
Proof.
  cbn [parse_section strchr]. change (37 =? 37)%N with true. cbn [skipn firstn app]. rewrite Nat.add_0_r. reflexivity.
Qed.
Lemma parse_spaces allowed ns : forall n fuel pre r args, n < fuel -> exists fuel', fuel' + n = fuel /\
  parse_section fuel allowed ns (pre ++ firstn 1 (expand_ns (S n) ++ r)) (skipn 1 (expand_ns (S n) ++ r)) args =
  parse_section fuel' allowed ns (pre ++ expand_ns (S n)) r args.
Proof.
  induction n as [|n IH]; intros fuel pre r args L.
  - exists fuel. split; [lia|]. change (expand_ns 1) with ([37%N] ++ [115%N]). rewrite <- app_assoc. cbn [app firstn skipn].
    rewrite (parse_text allowed ns fuel [115%N] _ r args) by (repeat constructor; discriminate). rewrite <- app_assoc. reflexivity.
  - change (expand_ns (S (S n))) with ([37%N] ++ [115%N; 32%N] ++ expand_ns (S n)). rewrite <- !app_assoc. cbn [app firstn skipn].
    change (115%N :: 32%N :: expand_ns (S n) ++ r) with ([115%N; 32%N] ++ expand_ns (S n) ++ r).
    rewrite (parse_text allowed ns fuel [115%N; 32%N]) by (repeat constructor; discriminate).
    destruct fuel as [|fuel]; [lia|].
    assert (E : exists m, expand_ns (S n) ++ r = 37%N :: 115%N :: m) by (destruct n; eexists; reflexivity). destruct E as [m E]. rewrite E.
    rewrite parse_at. change ((115 =? 37)%N || (115 =? 115)%N) with true. cbv iota.
    destruct (IH fuel ((pre ++ [37%N]) ++ [115%N; 32%N]) r args ltac:(lia)) as [fuel' [Q H]]. exists fuel'. split; [lia|].
    rewrite E in H. cbn [firstn skipn] in H. rewrite H. f_equal. rewrite <- !app_assoc. reflexivity.
Qed.
Definition fmt_item (ns : nat) (i : fitem) : bytes :=
  match i with FText s => s | FPercent => txt "%%" | FField _ => txt "%s" | FSpaces _ => expand_ns ns end.
Definition fmt (ns : nat) (l : list fitem) : bytes := concat (map (fmt_item ns) l).
Definition arg_of (i : fitem) : bytes := match i with FField c => [c] | FSpaces p => ns_name p | _ => [] end.
Definition cost_item (ns : nat) (i : fitem) : nat := match i with FText _ => 0 | FPercent => 2 | FField _ => 1 | FSpaces _ => S ns end.
Fixpoint cost (ns : nat) (l : list fitem) : nat := match l with [] => 0 | i :: r => cost_item ns i + cost ns r end.
Lemma frender_cons i r : frender (i :: r) = frender_item i ++ frender r.
Proof. reflexivity. Qed.
Lemma frender_nil allowed l : fitems_ok allowed l -> frender l = [] -> l = [].
Proof.
  destruct l as [|i r]; [reflexivity|]. intros [O _] E. rewrite frender_cons in E. apply app_eq_nil in E. destruct E as [E _].
  destruct i as [s| |c|p]; cbn [frender_item] in E; try discriminate E. contradiction (proj1 O E).
Qed.
Lemma begins_dec2 s a b : begins_with s [a; b] \/ ~ begins_with s [a; b].
Proof.
  destruct s as [|x [|y s]]; [right; intros [r E]; discriminate E|right; intros [r E]; discriminate E|].
  destruct (N.eq_dec x a) as [->|A]; [destruct (N.eq_dec y b) as [->|B]|]; [left; exists s; reflexivity|right; intros [r E]; injection E as E _; exact (B E)|right; intros [r E]; injection E as E _; exact (A E)].
Qed.
Lemma variant_plain r : ~ begins_with r (txt ":u") -> ~ begins_with r (txt ":p") -> ns_variant r = (txt "N", r).
Proof.
  intros A B. unfold ns_variant. destruct r as [|c r]; [reflexivity|].
  destruct (N.eq_dec c 58) as [->|Q].
  - destruct r as [|d r]; [reflexivity|]. destruct (N.eq_dec d 117) as [->|Q1]; [contradiction A; exists r; reflexivity|]. destruct (N.eq_dec d 112) as [->|Q2]; [contradiction B; exists r; reflexivity|].
    destruct d as [|p]; [reflexivity|]. repeat (destruct p as [p|p|]; try reflexivity); try (contradiction Q1; reflexivity); contradiction Q2; reflexivity.
  - destruct c as [|p]; [reflexivity|]. repeat (destruct p as [p|p|]; try reflexivity). contradiction Q. reflexivity.
Qed.
Lemma variant_uri r : ~ begins_with r (txt ":p") -> ns_variant (txt ":u" ++ r) = (txt "N:u", r).
Proof.
  intros B. change (txt ":u" ++ r) with (58%N :: 117%N :: r). cbn [ns_variant]. destruct r as [|c r]; [reflexivity|]. destruct (N.eq_dec c 58) as [->|Q].
  - destruct r as [|d r]; [reflexivity|]. destruct (N.eq_dec d 112) as [->|Q2]; [contradiction B; exists r; reflexivity|]. destruct d as [|p]; [reflexivity|]. repeat (destruct p as [p|p|]; try reflexivity). contradiction Q2. reflexivity.
  - destruct c as [|p]; [reflexivity|]. repeat (destruct p as [p|p|]; try reflexivity). contradiction Q. reflexivity.
Qed.
Lemma variant_ok p next : match p with NsAll => ~ begins_with next (txt ":u") /\ ~ begins_with next (txt ":p") | NsUri => ~ begins_with next (txt ":p") | NsPrefix => True end ->
  exists r, ns_name p ++ next = 78%N :: r /\ ns_variant r = (ns_name p, next).
Proof.
  destruct p; intros H; eexists; (split; [reflexivity|]); [exact (variant_plain _ (proj1 H) (proj2 H))|exact (variant_uri _ H)|reflexivity].
Qed.
Lemma allowed_in c l : In c l -> existsb (N.eqb c) l = true.
Proof. intros I. apply existsb_exists. exists c. split; [exact I|apply N.eqb_refl]. Qed.
Lemma parse_items allowed ns : 0 < ns -> forall l fuel pre args, fitems_ok allowed l -> cost ns l < fuel ->
  parse_section fuel allowed ns pre (frender l) args = Parsed (pre ++ fmt ns l) (args ++ map arg_of (fields l)).
Proof.
  intros Nn. induction l as [|i r IH]; intros fuel pre args O L.
  - unfold fmt. cbn [map concat fields filter]. rewrite !app_nil_r. apply parse_nil. lia.
  - destruct O as [O Or]. rewrite frender_cons. cbn [cost] in L. unfold fmt. cbn [map concat]. fold (fmt ns r). rewrite app_assoc.
    destruct i as [s| |c|p]; cbn [cost_item frender_item fmt_item fields filter is_field arg_of fitem_ok] in *; fold (fields r).
    + rewrite (parse_text allowed ns fuel s pre (frender r) args (proj2 O)). apply IH; [exact Or|lia].
    + destruct fuel as [|[|fuel]]; [lia|lia|]. change (txt "%%" ++ frender r) with (37%N :: 37%N :: frender r). rewrite parse_at. change ((37 =? 37)%N || (37 =? 115)%N) with true. cbv iota.
      destruct (frender r) as [|c m] eqn:E.
      * apply (frender_nil allowed) in E; [|exact Or]. subst r. cbn [parse_section strchr]. change (37 =? 37)%N with true. cbn [skipn]. unfold fmt. cbn [map concat fields filter]. rewrite <- !app_assoc, !app_nil_r. reflexivity.
      * rewrite parse_at. assert (C : (c =? 37)%N || (c =? 115)%N = true).
        { destruct O as [O|[[x O]|[x O]]]; [discriminate O|injection O as -> _; reflexivity|injection O as -> _; reflexivity]. }
        rewrite C, (IH fuel _ args Or ltac:(lia)). f_equal. rewrite <- !app_assoc. reflexivity.
    + destruct fuel as [|fuel]; [lia|]. change ([37%N; c] ++ frender r) with (37%N :: c :: frender r). rewrite parse_at. destruct O as [I [Q1 [Q2 Q3]]].
      apply N.eqb_neq in Q1, Q2, Q3. rewrite Q1, Q2, Q3, (allowed_in _ _ I). cbn [orb negb].
      change (txt "%s" ++ frender r) with ([37%N] ++ [115%N] ++ frender r). cbn [app firstn skipn]. change (115%N :: frender r) with ([115%N] ++ frender r).
      rewrite (parse_text allowed ns fuel [115%N]) by (repeat constructor; discriminate). rewrite (IH fuel _ _ Or ltac:(lia)). f_equal; [rewrite <- !app_assoc; reflexivity|]. cbn [map arg_of]. rewrite <- app_assoc. reflexivity.
    + destruct fuel as [|fuel]; [lia|]. destruct O as [I V]. destruct (variant_ok p (frender r) V) as [m [E Ev]].
      change ((37%N :: ns_name p) ++ frender r) with (37%N :: (ns_name p ++ frender r)). rewrite E, parse_at. rewrite (allowed_in _ _ I). change ((78 =? 37)%N || (78 =? 115)%N) with false. change (78 =? 78)%N with true. cbn [negb]. cbv iota. rewrite Ev.
      destruct ns as [|n]; [lia|]. destruct (parse_spaces allowed (S n) n fuel pre (frender r) (args ++ [ns_name p]) ltac:(lia)) as [fuel' [Q H]]. cbv zeta. rewrite H.
      rewrite (IH fuel' _ _ Or ltac:(lia)). f_equal. cbn [map arg_of]. rewrite <- app_assoc. reflexivity.
Qed.
Lemma cost_bound ns allowed l : fitems_ok allowed l -> cost ns l <= length (frender l) * S (S ns).
Proof.
  induction l as [|i r IH]; intros O; [cbn; lia|]. destruct O as [O Or]. rewrite frender_cons, app_length, Nat.mul_add_distr_r. cbn [cost]. specialize (IH Or).
  destruct i as [s| |c|p]; cbn [cost_item frender_item length txt]; try lia.
  - change (length (txt "%%")) with 2. lia.
Qed.
Lemma parse_ok allowed ns l : 0 < ns -> fitems_ok allowed l -> parse_template allowed ns (frender l) = Parsed (fmt ns l) (map arg_of (fields l)).
Proof. intros Nn O. unfold parse_template. pose proof (cost_bound ns allowed l O). rewrite (parse_items allowed ns Nn l _ [] [] O) by lia. reflexivity. Qed.

(** * Printing *)
(** The values of each field. *)
Definition supplied (ns : nat) (P : fitem -> list bytes) (l : list fitem) : Prop :=
  Forall (fun i => match i with FField _ => length (P i) = 1 | FSpaces _ => length (P i) = ns | _ => True end) l.
Definition with_values (P : fitem -> list bytes) (i : fitem) : bytes :=
  match i with FText s => s | FPercent => txt "%" | _ => spaced (P i) end.
Lemma print_text s f vs : no_byte 37 s -> print_format (s ++ f) vs = obind (print_format f vs) (fun o => Ok (s ++ o)).
Proof.
  induction s as [|c s IH]; intros F; cbn [app]; [destruct (print_format f vs); reflexivity|]. cbn [print_format].
  destruct (N.eqb_spec c 37) as [Q|Q]; [contradiction (Forall_inv F Q)|]. rewrite (IH (Forall_inv_tail F)). destruct (print_format f vs); reflexivity.
Qed.
Lemma print_spaces f rest : forall vs, vs <> [] -> print_format (expand_ns (length vs) ++ f) (vs ++ rest) = obind (print_format f rest) (fun o => Ok (spaced vs ++ o)).
Proof.
  induction vs as [|v vs IH]; intros Ne; [contradiction Ne; reflexivity|]. destruct vs as [|w vs].
  - change (expand_ns (length [v]) ++ f) with (37%N :: 115%N :: f). cbn [app print_format]. change (37 =? 37)%N with true. change (115 =? 37)%N with false. reflexivity.
  - change (expand_ns (length (v :: w :: vs)) ++ f) with (37%N :: 115%N :: 32%N :: (expand_ns (length (w :: vs)) ++ f)).
    change ((v :: w :: vs) ++ rest) with (v :: ((w :: vs) ++ rest)). cbn [print_format]. change (37 =? 37)%N with true. change (115 =? 37)%N with false. change (32 =? 37)%N with false. cbn [negb]. cbv iota.
    rewrite (IH ltac:(discriminate)). destruct (print_format f rest); [|reflexivity]. cbn [obind]. change (spaced (v :: w :: vs)) with (v ++ txt " " ++ spaced (w :: vs)). rewrite <- !app_assoc. reflexivity.
Qed.
Lemma print_items allowed ns P : 0 < ns -> forall l, fitems_ok allowed l -> supplied ns P l ->
  print_format (fmt ns l) (flat_map P (fields l)) = Ok (concat (map (with_values P) l)).
Proof.
  intros Nn. induction l as [|i r IH]; intros O S; [reflexivity|]. destruct O as [O Or]. specialize (IH Or (Forall_inv_tail S)). pose proof (Forall_inv S) as Si.
  unfold fmt. cbn [map concat]. fold (fmt ns r). destruct i as [s| |c|p]; cbn [fmt_item fields filter is_field fitem_ok with_values flat_map] in *; fold (fields r).
  - rewrite (print_text s _ _ (proj2 O)), IH. reflexivity.
  - change (txt "%%" ++ fmt ns r) with (37%N :: 37%N :: fmt ns r). cbn [print_format]. change (37 =? 37)%N with true. cbn [negb]. rewrite IH. reflexivity.
  - change (txt "%s") with (expand_ns 1). rewrite <- Si. rewrite print_spaces, IH; [reflexivity|]. destruct (P (FField c)); [discriminate Si|discriminate].
  - rewrite <- Si. rewrite print_spaces; [|destruct (P (FSpaces p)); [cbn in Si; lia|discriminate]]. rewrite Si, IH. reflexivity.
Qed.

(** * A section *)
Lemma in_fields i l : In i (fields l) -> In i l /\ is_field i = true.
Proof. intros I. apply filter_In in I. exact I. Qed.
Lemma flat_map_in {A B} (f g : A -> list B) l : (forall x, In x l -> f x = g x) -> flat_map f l = flat_map g l.
Proof. induction l as [|x l IH]; intros H; [reflexivity|]. cbn [flat_map]. rewrite (H x (or_introl eq_refl)), IH; [reflexivity|]. intros y I. apply H. right. exact I. Qed.
Lemma flat_map_map {A B C} (f : B -> list C) (g : A -> B) l : flat_map f (map g l) = flat_map (fun x => f (g x)) l.
Proof. induction l as [|x l IH]; [reflexivity|]. cbn [map flat_map]. rewrite IH. reflexivity. Qed.
(** [of_arg]: the parameters for an argument. *)
Lemma section_prints allowed ns l value spaces (of_arg : bool -> bytes -> list bytes) : 0 < ns -> section_ok allowed l -> (forall p, In 78%N allowed -> length (spaces p) = ns) ->
  (forall many c, In c allowed -> c <> 78%N -> of_arg many [c] = param many (value c)) -> (forall many p, In 78%N allowed -> of_arg many (ns_name p) = spaces p) ->
  print_section (fmt ns l) (flat_map (of_arg (1 <? length (map arg_of (fields l)))) (map arg_of (fields l))) = Ok (section_shows value spaces l).
Proof.
  intros Nn [O Em] Ls Ha Hs. rewrite flat_map_map. set (many := 1 <? length (map arg_of (fields l))).
  assert (Al : forall i, In i l -> match i with FField c => In c allowed /\ c <> 78%N | FSpaces _ => In 78%N allowed | _ => True end).
  { clear -O. induction l as [|i r IH]; intros j I; [destruct I|]. destruct O as [O Or]. destruct I as [<-|I]; [|exact (IH Or j I)]. destruct i; cbn [fitem_ok] in O; try exact Logic.I; [split; apply O|apply O]. }
  pose (P := fun i => match i with FField c => [match value c with Some v => v | None => [] end] | FSpaces p => spaces p | _ => [] end).
  assert (Sh : map (with_values P) l = map (shows value spaces) l) by (apply map_ext; intros [s| |c|p]; reflexivity).
  assert (Su : supplied ns P l) by (apply Forall_forall; intros [s| |c|p] Il; cbn [P]; try exact Logic.I; [reflexivity|exact (Ls p (Al _ Il))]).
  pose proof (print_items allowed ns P Nn l O Su) as Pr. rewrite Sh in Pr. unfold section_shows.
  destruct (lone_null value l) eqn:Ln.
  - unfold lone_null in Ln. destruct (fields l) as [|[s| |c|p] [|j fs]] eqn:F; try discriminate Ln. destruct (value c) eqn:V; [discriminate Ln|].
    assert (I : In (FField c) l) by (apply in_fields; rewrite F; left; reflexivity). cbn [flat_map arg_of]. destruct (Al _ I) as [A1 A2]. rewrite (Ha many c A1 A2), V. subst many. reflexivity.
  - assert (E : flat_map (fun x => of_arg many (arg_of x)) (fields l) = flat_map P (fields l)).
    { assert (Case : many = true \/ (exists c v, fields l = [FField c] /\ value c = Some v) \/ (exists p, fields l = [FSpaces p]) \/ fields l = []).
      { unfold many, lone_null in *. destruct (fields l) as [|i [|j fs]] eqn:F; [auto| |left; reflexivity].
        destruct (in_fields i l ltac:(rewrite F; left; reflexivity)) as [_ Fi]. destruct i as [s| |c|p]; try discriminate Fi; [|right; right; left; exists p; reflexivity].
        destruct (value c) as [v|] eqn:V; [right; left; exists c, v; split; [reflexivity|exact V]|discriminate Ln]. }
      assert (Sp : forall p, In (FSpaces p) l -> of_arg many (arg_of (FSpaces p)) = P (FSpaces p)) by (intros p I; exact (Hs many p (Al _ I))).
      destruct Case as [M|[[c [v [F V]]]|[[p F]|F]]].
      - apply flat_map_in. intros i I. destruct (in_fields i l I) as [I' Fi]. destruct i as [s| |c|p]; try discriminate Fi; [|exact (Sp p I')].
        destruct (Al _ I') as [A1 A2]. cbn [arg_of P]. rewrite (Ha many c A1 A2), M. destruct (value c); reflexivity.
      - rewrite F. cbn [flat_map arg_of P]. destruct (Al (FField c)) as [A1 A2]; [apply in_fields; rewrite F; left; reflexivity|]. rewrite (Ha many c A1 A2), V. reflexivity.
      - rewrite F. cbn [flat_map]. rewrite Sp; [reflexivity|]. apply in_fields. rewrite F. left. reflexivity.
      - rewrite F. reflexivity. }
    rewrite E. unfold print_section. destruct (flat_map P (fields l)) as [|v vs] eqn:Q; [|exact Pr].
    assert (F : fields l = []).
    { destruct (fields l) as [|i fs] eqn:F; [reflexivity|]. exfalso. destruct (in_fields i l ltac:(rewrite F; left; reflexivity)) as [Il Fi]. cbn [flat_map] in Q. apply app_eq_nil in Q. destruct Q as [Q _].
      destruct i as [s| |c|p]; try discriminate Fi; cbn [P] in Q; [discriminate Q|]. pose proof (Ls p (Al _ Il)) as K. rewrite Q in K. cbn in K. lia. }
    rewrite (Em F). reflexivity.
Qed.
