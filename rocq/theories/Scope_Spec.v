(** What a rule's element helper must have ended when the rule is left (C10). *)
From Verif Require Import Base Parser_Model Parser_Spec.

Definition tags (s : ps) : list (ttype * cat) := map (fun t => (o_type t, o_cat t)) (output s).
(** [s]: where the rule was entered, [s1]: where its body ended, [s2]: after the helper. *)
Definition scope_end (c : scope) (s s1 s2 : ps) : Prop :=
  match c with
  | Complete => (* the modes started since are ended, with their elements *)
      exists a, modes s1 = a ++ modes s2 /\ length a = length (modes s1) - length (modes s) /\
        (Forall (fun t => N.land (flags t) MODE_ISSUE_EMPTY_AT_POP = 0%N) a ->
         tags s2 = tags s1 ++ map (fun e => (TE e, Kend)) (open_types a))
  | Lightweight => (* the elements of the current mode started since are ended *)
      match modes s, modes s1 with
      | t :: _, t1 :: r1 => exists a l, opened t1 = a ++ l /\ length a = length (opened t1) - length (opened t) /\
          modes s2 = MState (flags t1) (flags_prev t1) (flags_all t1) l :: r1 /\
          (N.land (flags t1) MODE_ISSUE_EMPTY_AT_POP = 0%N -> tags s2 = tags s1 ++ map (fun x => (TE (snd x), Kend)) a)
      | _, _ => False
      end
  | Single => (* the innermost element is ended *)
      match modes s1 with
      | t1 :: r1 => modes s2 = MState (flags t1) (flags_prev t1) (flags_all t1) (tl (opened t1)) :: r1 /\
          (N.land (flags t1) MODE_ISSUE_EMPTY_AT_POP = 0%N -> tags s2 = tags s1 ++ map (fun x => (TE (snd x), Kend)) (firstn 1 (opened t1)))
      | [] => False
      end
  end.
