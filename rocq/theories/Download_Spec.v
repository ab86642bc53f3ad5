(** Specification of downloads (C63). *)
From Verif Require Import Base Download_Model.
Local Open Scope N_scope.

(** the block is passed on whole *)
Definition passes (b : block) : bool := (code b =? 200) && match taken b with Some n => Nat.eqb n (length (data b)) | None => false end.
(** the whole input arrives, and it is [content d] *)
Definition complete (d : download) : bool := forallb passes (blocks d) && succeeds d.
Definition content (d : download) : bytes := concat (map data (blocks d)).
(** the bytes of these blocks that arrive before the transfer is broken off *)
Fixpoint arriving (l : list block) : bytes :=
  match l with
  | [] => []
  | b :: l =>
      if code b =? 200
      then match taken b with
           | Some n => firstn n (data b) ++ (if Nat.eqb n (length (data b)) then arriving l else [])
           | None => match data b with [] => arriving l | _ => [] end
           end
      else match data b with [] => arriving l | _ => [] end
  end.
(** the server answers with success: code 200 with the first bytes, or a transfer without bytes that succeeds *)
Fixpoint answers (l : list block) (ok : bool) : bool :=
  match l with [] => ok | b :: l => (code b =? 200) || match data b with [] => answers l ok | _ => false end end.
(** no spurious wake-up; every input is read to its end *)
Definition calm (ls : list label) : Prop := Forall (fun l => l <> Spurious /\ l <> Quit) ls.
Definition reached (urls : list download) (room : nat) (ls : list label) (s : sys) : Prop := steps ls (start urls room) = Some s.
(** no thread can go on *)
Definition stuck (s : sys) : Prop := step Main s = None /\ forall i, step (Worker i) s = None.
Definition starts_with (p s : bytes) : Prop := exists r, s = p ++ r.
