(** What the start tag of a unit's own document says (C21), and end tags that have no element (C22). *)
From Verif Require Import Base Text_Model Text_Spec Api_Model Writer_Model Writer_Spec Writer_Proofs10.
Local Open Scope N_scope.

Definition effective_language (a : archive) (u : uobj) : option bytes := match u_language (uo_settings u) with Some l => Some l | None => a_language a end.
Lemma tag_says : forall a u n v, n <> [] ->
  In (n, v) (given (txt "revision") (uo_revision u) ++ given (txt "language") (effective_language a u) ++ given (txt "url") (uo_url u) ++
             given (txt "filename") (u_filename (uo_settings u)) ++ given (txt "version") (u_version (uo_settings u)) ++
             given (txt "timestamp") (u_timestamp (uo_settings u)) ++ given (txt "hash") (u_hash (uo_settings u))) ->
  In (n, v) (tag_attrs (unit_out a u) (start_args a u (uo_revision u))).
Proof.
  intros a u n v NE H. unfold tag_attrs. apply in_or_app. right. unfold named. apply filter_In. split; [|cbn [fst]; destruct n; [now elim NE|reflexivity]].
  unfold unit_attrs, start_args. cbn [g_language g_revision g_url g_filename g_version g_timestamp g_hash].
  fold (effective_language a u). repeat rewrite in_app_iff in *. tauto.
Qed.
(** an end without an open element is refused *)
Lemma end_refused : forall u t w, wu_trans u = Some t -> t_outputting t = true -> so_w (t_out t) = Some w -> (w_nodes w = Some [] \/ w_nodes w = None) ->
  exists u', write_call u EEnd = Ok (ST_INVALID_INPUT, u').
Proof.
  intros u t w T O W N. unfold write_call. rewrite T. unfold add_end_element. rewrite O. unfold result_w. rewrite W. unfold end_element.
  destruct N as [-> | ->]; eexists; reflexivity.
Qed.
Definition fresh_unit : wunit := plain_unit (txt "a.c").
(** the first end closes the unit itself *)
Lemma end_twice : exists u1 u2, write_start_unit archive_create fresh_unit = Ok (ST_OK, u1) /\ write_calls u1 [EEnd; EEnd; EEnd] = Ok ([ST_OK; ST_INVALID_INPUT; ST_INVALID_INPUT], u2).
Proof. eexists _, _. split; [vm_compute; reflexivity|]. vm_compute. reflexivity. Qed.
