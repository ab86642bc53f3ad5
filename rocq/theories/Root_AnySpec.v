(** What reading the root of any document does to an archive (C43). *)
From Verif Require Import Base Text_Model Text_Spec Api_Model Api_Spec Root_Model.
Local Open Scope N_scope.

(** the attributes that are not settings and are kept *)
Definition known : list bytes :=
  [txt "timestamp"; txt "language"; txt "revision"; txt "filename"; txt "url"; txt "version"; txt "tabs"; txt "options"; txt "hash"].
Definition kept (p : bytes * bytes) : list bytes := if in_dec bytes_dec (fst p) known then [] else [fst p; snd p].
(** what reading any root gives: the last of each setting, the last prefix declared for each URI *)
Definition any_root (ats : list (bytes * bytes)) (nss : list (option bytes * bytes)) (a : archive) (al : list bytes) (t : archive * list bytes) : Prop :=
  snd t = al ++ flat_map kept ats /\
  a_revision (fst t) = or_else (last_value (txt "revision") ats) (a_revision a) /\
  get_attr (fst t) AUrl = or_else (last_value (txt "url") ats) (get_attr a AUrl) /\
  get_attr (fst t) AVersion = or_else (last_value (txt "version") ats) (get_attr a AVersion) /\
  a_tabstop (fst t) = match last_value (txt "tabs") ats with Some v => to_size (atoi v) | None => a_tabstop a end /\
  (forall u, prefix_from_uri (fst t) u =
     or_else (last_value u (map (fun n => (uri_normalize (snd n), match fst n with Some p => p | None => [] end)) nss)) (prefix_from_uri a u)) /\
  get_attr (fst t) ALanguage = get_attr a ALanguage /\ a_pi (fst t) = a_pi a /\ a_macros (fst t) = a_macros a /\ a_extensions (fst t) = a_extensions a.

(** How a number is written: blanks, a sign, digits. *)
Definition white_char (c : N) : Prop := In c [9; 10; 11; 12; 13; 32].
Definition signed (s : bytes) (k : Z) : Prop := s = [] /\ k = 1%Z \/ s = txt "-" /\ k = (-1)%Z \/ s = txt "+" /\ k = 1%Z.
Definition numeral (ds : bytes) (n : N) : Prop := ds <> [] /\ Forall (fun c => 48 <= c <= 57) ds /\ dec_value ds = n.
