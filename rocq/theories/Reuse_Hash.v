(** The hash and the encoding a parse leaves (C35). *)
From Verif Require Import Base Text_Model Text_Spec Api_Model Writer_Model Writer_Spec Writer_Proofs8 Reuse_Model Reuse_Spec.
Local Open Scope N_scope.

Definition asked_encoding (a : archive) (u : wunit) : option bytes := match u_encoding (uo_settings (wu u)) with Some x => Some x | None => a_src_encoding a end.
Lemma hash_left : forall e t a u lang s v, delivers e t -> clean_opt (u_hash (uo_settings (wu u))) ->
  usable a (parse_start a (set_derived (wu u) lang) lang (Some (settled e (asked_encoding a u) s))) ->
  unit_parse e a u lang (Some s) = Ok (ST_OK, v) ->
  u_hash (uo_settings (wu v)) = match u_hash (uo_settings (wu u)) with Some h => Some h | None => if opt (a_options a) B_HASH then Some (digest e s) else None end /\
  u_encoding (uo_settings (wu v)) = Some (settled e (asked_encoding a u) s) /\ uo_derived (wu v) = lang /\ uo_url (wu v) = a_url a /\
  u_filename (uo_settings (wu v)) = u_filename (uo_settings (wu u)) /\ u_language (uo_settings (wu v)) = u_language (uo_settings (wu u)).
Proof.
  intros e t a u lang s v D CH US P. unfold unit_parse in P. destruct (lang =? 0); [discriminate P|]. cbn [wu wu_trans set_derived uo_settings] in P.
  fold (asked_encoding a u) in P. destruct (match asked_encoding a u with Some x => negb (supported e x) | None => false end); [discriminate P|].
  set (h := match u_hash (uo_settings (wu u)) with Some h => Some h | None => if opt (a_options a) B_HASH then Some (digest e s) else None end) in *.
  destruct (D lang (settled e (asked_encoding a u) s) s) as (G & GT & _ & DG). rewrite G in P.
  assert (CC : clean_opt h) by (unfold h; destruct (u_hash (uo_settings (wu u))); [exact CH|destruct (opt _ _); [exact DG|exact I]]).
  destruct (parse_ok (extracted e) a (WUnitObj (set_derived (wu u) lang) (wu_trans u)) lang (Some (settled e (asked_encoding a u) s)) h _ US CC GT) as (v' & E & _ & _ & _ & _ & SS & _).
  cbv zeta in P. change (parse_unit (extracted e) a (WUnitObj (set_derived (wu u) lang) (wu_trans u)) lang (Some (settled e (asked_encoding a u) s)) h (flat_map tokens_of (t lang (settled e (asked_encoding a u) s) s)) = Ok (ST_OK, v)) in P.
  rewrite E in P. injection P as <-. destruct SS as (_ & S & _ & U & _ & DD). rewrite S, U, DD. repeat split.
Qed.
