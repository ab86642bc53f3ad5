(** Vocabulary for C25, apart from the queues themselves. *)
From Verif Require Import Base Queue_Model.

(** The status an input ends with: the first thing that went wrong with it; an invalid argument (2)
    reported by the parse counts as an input error (5). *)
Definition outcome_of (r : req) : Z :=
  if Z.eqb (r_status r) 0 then
    let a := r_answers r in
    if a_unit a then
      match find (fun z => negb (Z.eqb z 0))
              (map (fun o => match o with Some z => z | None => 0%Z end)
                   [a_language a; a_filename a; a_version a;
                    option_map (fun z => if Z.eqb z 2 then 5%Z else z) (a_parse a)]) with
      | None => 0%Z
      | Some z => z
      end
    else 1%Z
  else r_status r.

(** Inputs for which the parse itself reports an invalid argument make the client exit. *)
Definition exits (r : req) : Prop := In Exit (srcml_consume (r_status r) (r_answers r)).

(** What should be handed to the output, in order: every input with its number and status. *)
Definition expected (inputs : list req) : list entry :=
  combine (combine (seq 1 (length inputs)) inputs) (map outcome_of inputs).

(** Number of successes. *)
Definition successes (inputs : list req) : nat :=
  length (filter (fun r => Z.eqb (outcome_of r) 0) inputs).

Definition prefix_of {A} (a b : list A) : Prop := exists r, a ++ r = b.

(** The whole run is over. *)
Definition over (s : sys) : Prop := phase s = Finished.
(** Spurious wake-ups in an execution. *)
Definition spurious (ls : list label) : nat :=
  length (filter (fun l => match l with Spurious => true | _ => false end) ls).
