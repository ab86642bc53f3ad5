(** What transformations are to do, in terms of documents as trees. *)
From Verif Require Import Base Text_Model Api_Model Transform_Model.
Local Open Scope N_scope.

(** the nodes of a tree, with what is below them *)
Fixpoint nodes_of (t : tree) : list tree := match t with Node _ _ ch => t :: flat_map nodes_of ch end.
Definition within (r t : tree) : Prop := In r (nodes_of t).

(** libxml2 and libxslt: a document has a root element and no node twice; an XPath finds nodes of the document,
    each once; a new document has its own nodes *)
Definition proper (g : engines) : Prop :=
  (forall x t l, xpath_eval g x [t] = Some (XNodes (Some l)) -> NoDup l /\ incl l (ids t)) /\
  (forall s t, xml_parse g s = Some t -> NoDup (ids t) /\ is_kind Elem t = true) /\
  (forall s ps n t u, xslt_run g s ps n [t] = Some u -> NoDup (flat_map ids u) /\ Forall (fun i => (n <= i)%nat) (flat_map ids u)).

(** ** Marking *)
(** the element around a result: its label, and that of its attribute, if there is one *)
Definition mark_label (x : xpath_t) : label := Label Elem (x_element x) (x_element_ns x) [].
Definition attr_labels (x : xpath_t) : list label := if empty (x_attr_name x) then [] else [Label Attr (x_attr_name x) (x_attr_ns x) (x_attr_value x)].
(** the same tree, with the nodes of [s] each inside such an element; new nodes have numbers outside of [old] *)
Inductive wrapped (old : list nat) (el : label) (attrs : list label) (s : list nat) : tree -> tree -> Prop :=
| Keep i l ch ch' : ~ In i s -> Forall2 (wrapped old el attrs s) ch ch' -> wrapped old el attrs s (Node i l ch) (Node i l ch')
| Wrap i l ch ch' n a : In i s -> Forall2 (wrapped old el attrs s) ch ch' -> ~ In n old ->
    Forall2 (fun lb t => root_label t = lb /\ children t = [] /\ ~ In (root_id t) old) attrs a ->
    wrapped old el attrs s (Node i l ch) (Node n el (a ++ [Node i l ch'])).
(** the same tree, with one more attribute, the last, on the elements of [s] *)
Inductive attributed (old : list nat) (lb : label) (s : list nat) : tree -> tree -> Prop :=
| Same i l ch ch' : ~ In i s \/ n_kind l <> Elem -> Forall2 (attributed old lb s) ch ch' -> attributed old lb s (Node i l ch) (Node i l ch')
| With i l ch a a' c c' n : In i s -> n_kind l = Elem -> ch = a ++ c -> Forall (fun t => is_kind Attr t = true) a ->
    match c with t :: _ => is_kind Attr t = false | [] => True end -> Forall2 (attributed old lb s) a a' -> Forall2 (attributed old lb s) c c' -> ~ In n old ->
    attributed old lb s (Node i l ch) (Node i l (a' ++ [Node n lb []] ++ c')).

(** ** One transformation of one tree: the results, as trees *)
Inductive applied (g : engines) (it : item) (t : tree) : list tree -> Prop :=
(** the nodes found *)
| Found x l rs : i_trans it = TXPath x -> x_element x = [] -> x_attr_name x = [] ->
    xpath_eval g (x_xpath x) [t] = Some (XNodes (Some l)) -> map root_id rs = l -> Forall (fun r => within r t) rs -> applied g it t rs
(** the tree, with the nodes found marked *)
| Wrapped x l t' : i_trans it = TXPath x -> x_element x <> [] ->
    xpath_eval g (x_xpath x) [t] = Some (XNodes (Some l)) -> wrapped (ids t) (mark_label x) (attr_labels x) l t t' -> applied g it t [t']
| Attributed x l t' : i_trans it = TXPath x -> x_element x = [] -> x_attr_name x <> [] ->
    xpath_eval g (x_xpath x) [t] = Some (XNodes (Some l)) ->
    attributed (ids t) (Label Attr (x_attr_name x) (x_attr_ns x) (x_attr_value x)) l t t' -> applied g it t [t']
(** the elements a stylesheet gives *)
| Styled s n u : i_trans it = TXslt s -> Forall (fun i => (i < n)%nat) (ids t) ->
    xslt_run g s (i_params it) n [t] = Some u -> Forall (fun r => is_kind Elem r = true) u -> applied g it t u
(** the tree, if valid *)
| Valid s : i_trans it = TRng s -> rng_valid g s [t] = true -> applied g it t [t].
(** ** A list of transformations of a list of trees: each to all results of the one before, in order *)
Inductive chain (g : engines) : list item -> list tree -> list tree -> Prop :=
| Last ts : chain g [] ts ts
| Next it l ts rss us : Forall2 (applied g it) ts rss -> chain g l (concat rss) us -> chain g (it :: l) ts us.

(** ** Where the code keeps to that (C50 says where it does not) *)
(** a transformation has results for a tree: for an XPath to be followed by others, elements, none inside another *)
Definition fits (g : engines) (it : item) (t : tree) (last : bool) : Prop :=
  match i_trans it with
  | TXPath x => exists l, xpath_eval g (x_xpath x) [t] = Some (XNodes (Some l)) /\
      match x_element x, x_attr_name x with
      | _ :: _, _ => ~ In (root_id t) l /\ forall r, within r t -> In (root_id r) l -> is_kind Attr r = false
      | [], _ :: _ => forall r a, within r t -> In (root_id r) l -> In a (children r) -> is_kind Attr a = true -> n_name (root_label a) <> x_attr_name x
      | [], [] => l <> [] /\ (last = false ->
          (forall r, within r t -> In (root_id r) l -> is_kind Elem r = true) /\
          (forall q r, within q t -> within r t -> In (root_id q) l -> In (root_id r) l -> within r q -> r = q))
      end
  | TXslt s => forall n, Forall (fun i => (i < n)%nat) (ids t) ->
      exists u, xslt_run g s (i_params it) n [t] = Some u /\ u <> [] /\ Forall (fun r => is_kind Elem r = true) u /\ (last = false -> length u = 1%nat)
  | TRng s => rng_valid g s [t] = true
  end.
(** and so on with all results; a stylesheet is for one tree *)
Fixpoint usable (g : engines) (l : list item) (ts : list tree) : Prop :=
  match l with
  | [] => True
  | it :: r => (forall t, In t ts -> fits g it t (match r with [] => true | _ => false end)) /\
      (match i_trans it with TXslt _ => length ts = 1%nat | _ => True end) /\
      forall rss, Forall2 (applied g it) ts rss -> usable g r (concat rss)
  end.
(** a result as it is put into a unit *)
Definition shown (g : engines) (t : tree) : bytes :=
  match t with
  | Node _ (Label Elem _ _ _) _ => xml_dump g t
  | Node _ (Label Text _ _ c) _ => c
  | Node _ (Label Comment _ _ c) _ => txt "<!--" ++ c ++ txt "-->"
  | Node _ (Label Attr n _ c) _ => n ++ txt "=""" ++ c ++ txt """"
  end.
