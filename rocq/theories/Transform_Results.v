(** The units made of results: what they are to be. *)
From Verif Require Import Base Text_Model Text_Spec Api_Model Transform_Model Transform_Spec.
Local Open Scope N_scope.

(** a node of the tree, attributes aside *)
Inductive inner : tree -> tree -> Prop :=
| Itself t : inner t t
| Below r c i l ch : In c ch -> is_kind Attr c = false -> inner r c -> inner r (Node i l ch).
(** a prefix for the namespace is used in the element *)
Definition used (uri : bytes) (t : tree) : Prop := is_kind Elem t = true /\ exists r p, inner r t /\ n_ns (root_label r) = Some (Some p, uri).
(** an entry of the namespaces, marked as used if it is *)
Definition flagged (t : tree) (n n' : ns) : Prop :=
  ns_prefix n' = ns_prefix n /\ ns_uri n' = ns_uri n /\ (forall b, b <> 2 -> N.testbit (ns_flags n') b = N.testbit (ns_flags n) b) /\
  (ns_uri n = CPP_URI \/ ns_uri n = OPENMP_URI -> (N.testbit (ns_flags n') 2 = true <-> used (ns_uri n) t)) /\
  (ns_uri n <> CPP_URI -> ns_uri n <> OPENMP_URI -> ns_flags n' = ns_flags n).
Definition namespaces_for (u : uobj) (t : tree) (v : uobj) : Prop :=
  let l := match uo_namespaces u with Some l => l | None => starting_namespaces end in
  exists l' more, uo_namespaces v = Some (l' ++ more) /\ Forall2 (flagged t) l l' /\
    forall n, In n more <-> (n = Ns (txt "cpp") CPP_URI 20 /\ used CPP_URI t /\ ~ In CPP_URI (map ns_uri l) \/
                             n = Ns (txt "omp") OPENMP_URI 20 /\ used OPENMP_URI t /\ ~ In OPENMP_URI (map ns_uri l)).
(** the fields of a unit, by the name of the attribute *)
Definition unit_fields : list (bytes * (uobj -> option bytes)) :=
  [(txt "timestamp", fun u => u_timestamp (uo_settings u)); (txt "hash", fun u => u_hash (uo_settings u)); (txt "language", fun u => u_language (uo_settings u));
   (txt "revision", uo_revision); (txt "filename", fun u => u_filename (uo_settings u)); (txt "url", uo_url); (txt "version", fun u => u_version (uo_settings u))].
(** a part of a unit: numbered, with all of the unit but its hash *)
Definition part_of (u : uobj) (n : nat) (v : uobj) : Prop :=
  uo_attributes v = uo_attributes u ++ [txt "item"; txt (DecimalString.NilZero.string_of_uint (Nat.to_uint (S n)))] /\
  (forall k get, In (k, get) unit_fields -> get v = if list_eq_dec N.eq_dec k (txt "hash") then None else get u) /\
  uo_content v = (0, Z.of_nat (length (uo_srcml v)) + 1)%Z.
(** a unit: with its own attributes, and the others of the unit it comes from *)
Definition own_attributes (t : tree) : list (bytes * bytes) :=
  if is_kind Elem t then map (fun a => (n_name (root_label a), n_content (root_label a))) (attrs_of (children t)) else [].
Definition unit_of (u : uobj) (ps : list (bytes * bytes)) (t : tree) (v : uobj) : Prop :=
  (forall k get, In (k, get) unit_fields -> get v = or_else (last_value k (own_attributes t)) (get u)) /\
  (forall a b c, uo_srcml v = a ++ [62] ++ b ++ [60] ++ c -> ~ In 62 a -> ~ In 60 c -> uo_content v = (Z.of_nat (length a) + 1, Z.of_nat (length a + length b) + 2)%Z) /\
  exists ps', uo_attributes v = flatten ps' /\ NoDup (map fst ps') /\
    map fst ps' = map fst ps ++ first_seen (map fst ps) (map fst (others (own_attributes t))) /\
    (forall k, last_value k ps' = or_else (last_value k (others (own_attributes t))) (last_value k ps)).
(** a unit of a result *)
Definition made (g : engines) (u : uobj) (t : tree) (v : uobj) : Prop :=
  uo_srcml v = shown g t /\ namespaces_for u t v /\ uo_archive v = uo_archive u /\ u_encoding (uo_settings v) = u_encoding (uo_settings u) /\
  u_eol (uo_settings v) = u_eol (uo_settings u) /\ uo_derived v = uo_derived u /\ uo_read_header v = true /\ uo_read_body v = true.
