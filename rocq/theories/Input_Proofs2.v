(** C40: the text of --text. *)
From Verif Require Import Base Text_Model Text_Spec Text_Proofs Text_Proofs2 Text_Proofs3 Writer_Model Writer_Spec Writer_Proofs2 Writer_Proofs10 Input_Model Input_Spec Input_Proofs.

Lemma strchr_over s c t : no_byte c s -> strchr (s ++ t) c = option_map (fun n => length s + n) (strchr t c).
Proof.
  induction s as [|x s IH]; intros F; cbn [app length]; [destruct (strchr t c); reflexivity|]. cbn [strchr].
  destruct (N.eqb_spec x c) as [E|E]; [contradiction (Forall_inv F E)|]. rewrite (IH (Forall_inv_tail F)). destruct (strchr t c); reflexivity.
Qed.
Lemma request_run fuel s t buffer : no_byte 92 s -> text_request fuel (s ++ t) buffer = text_request fuel t (buffer ++ s).
Proof.
  intros F. destruct fuel as [|fuel]; cbn [text_request]; rewrite (strchr_over s 92%N t F); destruct (strchr t 92) as [n|]; cbn [option_map]; try (rewrite <- app_assoc; reflexivity); try reflexivity.
  replace (skipn (S (length s + n)) (s ++ t)) with (skipn (S n) t) by (rewrite skipn_app, (skipn_all2 s) by lia; replace (S (length s + n) - length s) with (S n) by lia; reflexivity).
  rewrite firstn_app, (firstn_all2 s) by lia. replace (length s + n - length s) with n by lia.
  destruct (escape_of (skipn (S n) t)) as [[b r|r]|]; cbn [obind]; rewrite <- ?app_assoc; reflexivity.
Qed.
Lemma request_escape fuel t buffer : text_request (S fuel) (92%N :: t) buffer =
  obind (escape_of t) (fun e => match e with Push b r => text_request fuel r (buffer ++ b) | NextUnit r => Ok (buffer, Some r) end).
Proof.
  cbn [text_request strchr]. change (92 =? 92)%N with true. cbn [skipn firstn app]. rewrite app_nil_r. reflexivity.
Qed.

(** * Digits *)
Lemma digits_complete p n ds next : complete p n ds next -> digits p n (ds ++ next) = ds.
Proof.
  intros [F [L C]]. revert n L C. induction ds as [|c ds IH]; intros n L C; cbn [app].
  - destruct n; [reflexivity|]. destruct next as [|c next]; [reflexivity|]. cbn [digits]. rewrite (C ltac:(cbn; lia)). reflexivity.
  - destruct n as [|n]; [cbn in L; lia|]. cbn [digits]. rewrite (Forall_inv F). f_equal. apply (IH (Forall_inv_tail F)); [cbn in L; lia|]. intros K. apply C. cbn. lia.
Qed.
Lemma digits_ok p n t : complete p n (digits p n t) (skipn (length (digits p n t)) t) /\ t = digits p n t ++ skipn (length (digits p n t)) t.
Proof.
  revert n. induction t as [|c t IH]; intros n.
  - destruct n; cbn [digits length skipn app]; (split; [|reflexivity]); (split; [constructor|]); (split; [cbn; lia|]); intros _; exact I.
  - destruct n as [|n]; cbn [digits]; [split; [|reflexivity]; split; [constructor|]; split; [cbn; lia|]; intros K; cbn in K; lia|].
    destruct (p c) eqn:Q; [|cbn [length skipn app]; split; [|reflexivity]; split; [constructor|]; split; [cbn; lia|]; intros _; exact Q].
    destruct (IH n) as [[F [L C]] E]. cbn [length skipn app]. split; [|f_equal; exact E]. split; [constructor; [exact Q|exact F]|]. split; [cbn [length]; lia|]. intros K. apply C. cbn [length] in K. lia.
Qed.
Lemma fold_positional b f ds : forall v, fold_left (fun v c => f c + b * v)%N ds v = (positional b f ds + v * b ^ N.of_nat (length ds))%N.
Proof.
  induction ds as [|c ds IH]; intros v; [cbn; lia|]. cbn [fold_left positional length]. rewrite IH. rewrite (Nat2N.inj_succ (length ds)), N.pow_succ_r'. lia.
Qed.
Lemma value16_positional ds : value16 ds = positional 16 hex_digit ds.
Proof. unfold value16. rewrite fold_positional. lia. Qed.
Lemma value8_positional ds : value8 ds = positional 8 (fun c => c - 48)%N ds.
Proof. unfold value8. rewrite (fold_positional 8 (fun c => c - 48)%N). lia. Qed.
Lemma digits_skip p n ds next : complete p n ds next -> skipn (length (digits p n (ds ++ next))) (ds ++ next) = next.
Proof. intros C. rewrite (digits_complete _ _ _ _ C), skipn_app, skipn_all, Nat.sub_diag. reflexivity. Qed.

(** * One item *)
Lemma hex_after c : is_oct c = true -> (48 <= c <= 55)%N.
Proof. unfold is_oct. intros H. apply andb_true_iff in H. destruct H as [A B]. apply N.leb_le in A, B. lia. Qed.
Lemma escape_item i next : item_ok i next -> match i with IRun _ => True | _ =>
  exists t, render_item i ++ next = 92%N :: t /\ escape_of t = Ok (match meaning i with Some b => Push b next | None => NextUnit next end) end.
Proof.
  destruct i as [s|c b|ds|ds|ds| |c]; intros O; cbn [item_ok] in O; [exact I|..]; cbn [render_item app].
  - eexists. split; [reflexivity|]. cbn [meaning]. cbn [In named] in O.
    repeat (destruct O as [O|O]; [injection O as <- <-; reflexivity|]). destruct O.
  - destruct O as [Ne C]. eexists. split; [reflexivity|]. cbn [escape_of]. change (_ =? _)%N with false at 1. cbn [N.eqb Pos.eqb].
    rewrite (digits_skip _ _ _ _ C), (digits_complete _ _ _ _ C), value16_positional. destruct ds as [|c ds]; [contradiction Ne; reflexivity|].
    cbn [meaning]. destruct (positional 16 hex_digit (c :: ds)) as [|v]; reflexivity.
  - eexists. split; [reflexivity|]. cbn [escape_of]. cbn [N.eqb Pos.eqb]. change (is_oct 48) with true. cbn iota.
    rewrite (digits_skip _ _ _ _ O), (digits_complete _ _ _ _ O), value8_positional.
    cbn [meaning]. destruct (positional 8 (fun c => (c - 48)%N) ds) as [|v]; reflexivity.
  - destruct O as [C Nz]. exists (ds ++ next). split; [reflexivity|]. destruct ds as [|c ds]; [destruct Nz|].
    pose proof C as [F _]. pose proof (Forall_inv F) as Oc. pose proof (hex_after c Oc) as R.
    cbn [escape_of app].
    destruct (N.eqb_spec c 110) as [->|_]; [discriminate Oc|]. destruct (N.eqb_spec c 116) as [->|_]; [discriminate Oc|]. destruct (N.eqb_spec c 102) as [->|_]; [discriminate Oc|].
    destruct (N.eqb_spec c 97) as [->|_]; [discriminate Oc|]. destruct (N.eqb_spec c 98) as [->|_]; [discriminate Oc|]. destruct (N.eqb_spec c 101) as [->|_]; [discriminate Oc|].
    destruct (N.eqb_spec c 114) as [->|_]; [discriminate Oc|]. destruct (N.eqb_spec c 118) as [->|_]; [discriminate Oc|]. destruct (N.eqb_spec c 120) as [->|_]; [discriminate Oc|].
    rewrite Oc. destruct (N.eqb_spec c 48) as [->|_]; [contradiction Nz; reflexivity|].
    change (c :: ds ++ next) with ((c :: ds) ++ next). rewrite (digits_skip _ _ _ _ C), (digits_complete _ _ _ _ C), value8_positional.
    cbn [meaning]. destruct (positional 8 (fun c0 => (c0 - 48)%N) (c :: ds)) as [|v]; reflexivity.
  - eexists. split; [reflexivity|]. cbn [escape_of]. cbn [N.eqb Pos.eqb]. destruct next as [|c next]; [reflexivity|]. cbn [digits]. rewrite O. reflexivity.
  - destruct O as [_ [Nn [Nx Oc]]]. eexists. split; [reflexivity|]. cbn [escape_of named map fst In] in *.
    destruct (N.eqb_spec c 110) as [->|_]; [exfalso; apply Nn; tauto|]. destruct (N.eqb_spec c 116) as [->|_]; [exfalso; apply Nn; tauto|]. destruct (N.eqb_spec c 102) as [->|_]; [exfalso; apply Nn; tauto|].
    destruct (N.eqb_spec c 97) as [->|_]; [exfalso; apply Nn; tauto|]. destruct (N.eqb_spec c 98) as [->|_]; [exfalso; apply Nn; tauto|]. destruct (N.eqb_spec c 101) as [->|_]; [exfalso; apply Nn; tauto|].
    destruct (N.eqb_spec c 114) as [->|_]; [exfalso; apply Nn; tauto|]. destruct (N.eqb_spec c 118) as [->|_]; [exfalso; apply Nn; tauto|]. destruct (N.eqb_spec c 120) as [->|_]; [contradiction Nx; reflexivity|].
    rewrite Oc. reflexivity.
Qed.

(** * A text *)
Fixpoint first_unit (l : list item) : bytes * option (list item) :=
  match l with
  | [] => ([], None)
  | i :: r => match meaning i with None => ([], Some r) | Some b => let (u, o) := first_unit r in (b ++ u, o) end
  end.
Lemma sources_first l : sources l = fst (first_unit l) :: match snd (first_unit l) with None => [] | Some r => sources r end.
Proof.
  induction l as [|i r IH]; [reflexivity|]. cbn [sources first_unit]. destruct (meaning i) as [b|]; [|reflexivity].
  rewrite IH. destruct (first_unit r) as [u o]. reflexivity.
Qed.
Definition finish (tail buffer : bytes) : outcome (bytes * option bytes) := match tail with [] => Ok (buffer, None) | _ => UB end.
Lemma render_cons i r : render (i :: r) = render_item i ++ render r.
Proof. reflexivity. Qed.
Lemma request_items tail : tail = [] \/ tail = [92%N] -> forall l fuel buffer, items_ok l tail -> length (render l ++ tail) <= fuel ->
  text_request fuel (render l ++ tail) buffer =
  match first_unit l with (u, None) => finish tail (buffer ++ u) | (u, Some r) => Ok (buffer ++ u, Some (render r ++ tail)) end.
Proof.
  intros T. induction l as [|i r IH]; intros fuel buffer O L.
  - cbn [render map concat app first_unit]. rewrite app_nil_r. destruct T as [-> | ->]; [destruct fuel; cbn; rewrite app_nil_r; reflexivity|].
    destruct fuel as [|fuel]; [cbn in L; lia|]. rewrite request_escape. reflexivity.
  - destruct O as [O Or]. rewrite render_cons in *. pose proof (escape_item i (render r ++ tail) O) as E.
    assert (Run : forall s, i = IRun s -> text_request fuel ((render_item i ++ render r) ++ tail) buffer =
      match first_unit (i :: r) with (u, None) => finish tail (buffer ++ u) | (u, Some r') => Ok (buffer ++ u, Some (render r' ++ tail)) end).
    { intros s ->. cbn [render_item first_unit meaning]. rewrite <- app_assoc, request_run by apply O. rewrite (IH fuel _ Or) by (cbn [render_item] in L; rewrite <- app_assoc, app_length in L; lia).
      destruct (first_unit r) as [u [o|]]; rewrite <- app_assoc; reflexivity. }
    destruct i as [s|c b|ds|ds|ds| |c]; [exact (Run s eq_refl)|..]; clear Run; destruct E as [t [E1 E2]]; rewrite <- app_assoc, E1 in *;
      (destruct fuel as [|fuel]; [cbn in L; lia|]); rewrite request_escape, E2; cbn [obind first_unit];
      (assert (Lr : length (render r ++ tail) <= fuel); [apply (f_equal (@length N)) in E1; rewrite app_length in E1; cbn [render_item app length] in E1, L; lia|]);
      match goal with |- context [meaning ?j] => destruct (meaning j) as [bb|] end;
      try (rewrite (IH fuel _ Or Lr); destruct (first_unit r) as [u [o|]]; rewrite <- app_assoc; reflexivity); rewrite app_nil_r; reflexivity.
Qed.
Lemma first_rest l tail u r : items_ok l tail -> first_unit l = (u, Some r) -> items_ok r tail /\ length (render r) < length (render l).
Proof.
  revert u r. induction l as [|i l IH]; intros u r O E; [discriminate E|]. cbn [first_unit] in E. destruct O as [O Ol]. rewrite render_cons, app_length.
  assert (P : 0 < length (render_item i)) by (destruct i as [s|c b|ds|ds|ds| |c]; cbn [render_item length app]; try lia; destruct O as [O _]; destruct s; [contradiction O; reflexivity|cbn; lia]).
  destruct (meaning i) as [b|].
  - destruct (first_unit l) as [u' o]. injection E as _ ->. destruct (IH u' r Ol eq_refl) as [A B]. split; [exact A|lia].
  - injection E as _ <-. split; [exact Ol|lia].
Qed.
Lemma requests_items l : forall fuel, items_ok l [] -> length (render l) <= fuel -> text_requests fuel (render l) = Ok (sources l).
Proof.
  remember (length (render l)) as n eqn:Hn. revert l Hn. induction n as [n IH] using lt_wf_ind. intros l Hn fuel O L. subst n.
  pose proof (request_items [] (or_introl eq_refl) l (length (render l)) [] O) as R. rewrite app_nil_r in R. specialize (R (le_n _)).
  destruct fuel as [|fuel]; cbn [text_requests]; rewrite R; clear R; rewrite sources_first; destruct (first_unit l) as [u [r|]] eqn:F; cbn [obind finish fst snd app]; try reflexivity.
  - destruct (first_rest l [] u r O F) as [_ K]. lia.
  - destruct (first_rest l [] u r O F) as [Or K]. rewrite app_nil_r. rewrite (IH (length (render r)) K r eq_refl fuel Or ltac:(lia)). reflexivity.
Qed.
Lemma requests_dangling l : forall fuel, items_ok l [92%N] -> text_requests fuel (render l ++ [92%N]) = UB.
Proof.
  remember (length (render l)) as n eqn:Hn. revert l Hn. induction n as [n IH] using lt_wf_ind. intros l Hn fuel O. subst n.
  pose proof (request_items [92%N] (or_intror eq_refl) l (length (render l ++ [92%N])) [] O (le_n _)) as R.
  destruct fuel as [|fuel]; cbn [text_requests]; rewrite R; clear R; destruct (first_unit l) as [u [r|]] eqn:F; cbn [obind finish fst snd]; try reflexivity.
  destruct (first_rest l [92%N] u r O F) as [Or K]. rewrite (IH (length (render r)) K r eq_refl fuel Or). reflexivity.
Qed.

(** Every text is made of items. *)
Lemma every_text t : no_byte 0 t -> exists l tail, t = render l ++ tail /\ items_ok l tail /\ (tail = [] \/ tail = [92%N]).
Proof.
  remember (length t) as n eqn:Hn. revert t Hn. induction n as [n IH] using lt_wf_ind. intros t Hn Z. subst n.
  destruct t as [|c t]; [exists [], []; repeat split; left; reflexivity|].
  assert (Go : forall i r, c :: t = render_item i ++ r -> length r < S (length t) -> no_byte 0 r -> item_ok i r ->
     exists l tail, c :: t = render l ++ tail /\ items_ok l tail /\ (tail = [] \/ tail = [92%N])).
  { intros i r E L Zr O. destruct (IH (length r) L r eq_refl Zr) as [l [tail [E' [Ol T]]]]. exists (i :: l), tail. rewrite render_cons, <- app_assoc, <- E'. split; [exact E|]. split; [|exact T]. split; [rewrite <- E'; exact O|exact Ol]. }
  destruct (N.eq_dec c 92) as [->|Nc].
  2:{ apply (Go (IRun [c]) t); [reflexivity|lia|exact (Forall_inv_tail Z)|]. split; [discriminate|]. split; [constructor; [exact Nc|constructor]|constructor; [exact (Forall_inv Z)|constructor]]. }
  pose proof (Forall_inv_tail Z) as Zt. destruct t as [|d t]; [exists [], [92%N]; repeat split; right; reflexivity|].
  pose proof (Forall_inv Zt) as Zd. pose proof (Forall_inv_tail Zt) as Zr.
  destruct (in_dec N.eq_dec d (map fst named)) as [I|I].
  { apply in_map_iff in I. destruct I as [[d' b] [Ed I]]. cbn in Ed. subst d'. apply (Go (INamed d b) t); [reflexivity|cbn; lia|exact Zr|exact I]. }
  destruct (N.eq_dec d 120) as [->|Nx].
  { destruct (digits_ok is_hex 2 t) as [C E]. destruct (digits is_hex 2 t) as [|x ds] eqn:D.
    - apply (Go IBareX t); [reflexivity|cbn; lia|exact Zr|]. cbn [item_ok]. destruct t as [|y t]; [exact Logic.I|]. cbn [digits] in D. destruct (is_hex y) eqn:Y; [discriminate D|reflexivity].
    - apply (Go (IHex (x :: ds)) (skipn (length (x :: ds)) t)); [cbn [render_item app]; f_equal; f_equal; exact E|rewrite skipn_length; cbn; lia|rewrite E in Zr; apply Forall_app in Zr; apply Zr|].
      split; [discriminate|exact C]. }
  destruct (is_oct d) eqn:Od.
  2:{ apply (Go (IOther d) t); [reflexivity|cbn; lia|exact Zr|]. split; [exact Zd|]. split; [exact I|]. split; [exact Nx|exact Od]. }
  destruct (N.eq_dec d 48) as [->|N0].
  - destruct (digits_ok is_oct 3 t) as [C E].
    apply (Go (IOct0 (digits is_oct 3 t)) (skipn (length (digits is_oct 3 t)) t)); [cbn [render_item app]; f_equal; f_equal; exact E|rewrite skipn_length; cbn; lia|rewrite E in Zr; apply Forall_app in Zr; apply Zr|exact C].
  - destruct (digits_ok is_oct 3 (d :: t)) as [C E]. assert (Dc : exists ds, digits is_oct 3 (d :: t) = d :: ds) by (cbn [digits]; rewrite Od; eexists; reflexivity). destruct Dc as [ds Dc]. rewrite Dc in *.
    apply (Go (IOct (d :: ds)) (skipn (length (d :: ds)) (d :: t))); [cbn [render_item app]; f_equal; exact E|rewrite skipn_length; cbn [length]; lia|rewrite E in Zt; apply Forall_app in Zt; apply Zt|].
    split; [exact C|exact N0].
Qed.

(** * The option *)
Lemma text_input isdir t : t <> [] -> ~ contains t SEPARATOR -> no_byte 0 t -> input_text isdir t = text_requests (length t) t.
Proof.
  intros Ne C Z. unfold input_text, input_of. rewrite (add_prefixed _ (add_contains _ _)).
  destruct (split_prefixed (txt "text") t) as [Sp _]; [repeat constructor; discriminate|]. rewrite Sp.
  change (negb (beqb (txt "text") (txt "text"))) with false. cbn [andb]. destruct t as [|c r]; [contradiction Ne; reflexivity|].
  rewrite andb_false_r. cbn [obind in_resource]. destruct (split_none _ C) as [_ [_ U]]. rewrite U, (upto_nul_id _ Z). reflexivity.
Qed.
Lemma text_decoded isdir l : render l <> [] -> ~ contains (render l) SEPARATOR -> items_ok l [] -> no_byte 0 (render l) ->
  input_text isdir (render l) = Ok (sources l).
Proof. intros Ne C O Z. rewrite (text_input isdir _ Ne C Z). exact (requests_items l _ O (le_n _)). Qed.
Lemma text_dangling isdir l : ~ contains (render l ++ [92%N]) SEPARATOR -> items_ok l [92%N] -> no_byte 0 (render l) ->
  input_text isdir (render l ++ [92%N]) = UB.
Proof.
  intros C O Z. rewrite (text_input isdir); [apply requests_dangling; exact O|destruct (render l); discriminate|exact C|].
  apply Forall_app. split; [exact Z|]. repeat constructor. discriminate.
Qed.
