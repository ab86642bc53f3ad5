(** Examples of transformations, with a small libxml2: XPaths that are the name of the nodes found, and some others. *)
From Verif Require Import Base Text_Model Text_Spec Text_Proofs3 Api_Model Transform_Model Transform_Spec Transform_Trees Transform_Marks Transform_Heap Transform_Chain Transform_Results Transform_Units Transform_Whole Transform_Calls.
Local Open Scope N_scope.

Definition el (i : nat) (name : bytes) (ch : list tree) : tree := Node i (Label Elem name None []) ch.
Definition te (i : nat) (s : bytes) : tree := Node i (Label Text (txt "text") None s) [].
Definition co (i : nat) (s : bytes) : tree := Node i (Label Comment (txt "comment") None s) [].
Definition at_ (i : nat) (name value : bytes) : tree := Node i (Label Attr name None value) [].
Definition prefixed (o : option (option bytes * bytes)) : bytes := match o with Some (Some p, _) => p ++ txt ":" | _ => [] end.
Fixpoint dump (t : tree) : bytes :=
  match t with
  | Node _ l ch =>
      match n_kind l with
      | Elem => txt "<" ++ prefixed (n_ns l) ++ n_name l ++
                flat_map (fun c => match c with Node _ (Label Attr n o v) _ => txt " " ++ prefixed o ++ n ++ txt "=""" ++ v ++ txt """" | _ => [] end) ch ++ txt ">" ++
                flat_map (fun c => match c with Node _ (Label Attr _ _ _) _ => [] | _ => dump c end) ch ++ txt "</" ++ prefixed (n_ns l) ++ n_name l ++ txt ">"
      | Text => flat_map (fun c => if c =? 60 then txt "&lt;" else [c]) (n_content l)
      | Comment => txt "<!--" ++ n_content l ++ txt "-->"
      | Attr => []
      end
  end.
Definition named (x : bytes) (t : tree) : bool := beqb (n_name (root_label t)) x.
Definition found (x : bytes) (ts : list tree) : list nat := nodup Nat.eq_dec (map root_id (filter (named x) (flat_map nodes_of ts))).
(** unit language="C" { function { name { f } block { function { name { g } } } } comment class { name { a<b } } } *)
Definition doc : tree :=
  el 0 (txt "unit") [at_ 1 (txt "language") (txt "C");
    el 2 (txt "function") [el 3 (txt "name") [te 4 (txt "f")]; el 5 (txt "block") [el 6 (txt "function") [el 7 (txt "name") [te 8 (txt "g")]]]];
    co 9 (txt "x"); el 10 (txt "class") [at_ 11 (txt "type") (txt "t"); el 12 (txt "name") [te 13 (txt "a<b")]];
    el 14 (txt "class") [el 15 (txt "name") [te 16 (txt "c")]; el 17 (txt "block") []]].
Definition sheets (s : nat) (n : nat) : list tree :=
  match s with
  | 0%nat => [el n (txt "unit") [el (S n) (txt "class") []]]
  | 1%nat => [el n (txt "one") []; te (S n) (txt "t"); el (S (S n)) (txt "two") []]
  | 2%nat => [el n (txt "one") []; el (S n) (txt "two") []]
  | 3%nat => [te n (txt "out")]
  | _ => []
  end.
Definition lib : engines := Engines
  (fun x ts => if beqb x (txt "count(//name)") then Some (XNumber (N.of_nat (length (found (txt "name") ts)))) else Some (XNodes (Some (found x ts))))
  (fun s _ n _ => Some (sheets s n))
  (fun s ts => match s with 0%nat => true | _ => negb (existsb (named (txt "block")) (flat_map nodes_of ts)) end)
  (fun ts => match ts with t :: _ => Some (n_content (root_label t)) | [] => None end)
  (fun s => if beqb s (txt "bad") then None else Some doc)
  dump.
Lemma nodes_ids t : map root_id (nodes_of t) = ids t.
Proof.
  revert t. fix IH 1. intros [i l ch]. cbn. f_equal. induction ch as [|c ch IHc]; [reflexivity|]. cbn. rewrite map_app, IHc, (IH c). reflexivity.
Qed.
Lemma lib_proper : proper lib.
Proof.
  split; [|split].
  - intros x t l H. cbn [xpath_eval lib] in H. destruct (beqb x (txt "count(//name)")); [discriminate H|]. injection H as <-. split; [apply NoDup_nodup|].
    intros i I. apply nodup_In in I. apply in_map_iff in I as (r & <- & I). apply filter_In in I as (I & _). cbn in I. rewrite app_nil_r in I.
    rewrite <- nodes_ids. apply in_map. exact I.
  - intros s t H. cbn [xml_parse lib] in H. destruct (beqb s (txt "bad")); [discriminate H|]. injection H as <-. split; [|reflexivity]. repeat (constructor; [cbn; intuition discriminate|]). constructor.
  - intros s ps n t u H. cbn in H. injection H as <-.
    destruct s as [|[|[|[|s]]]]; cbn; (split; [repeat (constructor; [cbn; intuition (try discriminate; try lia)|]); constructor|repeat (constructor; try lia)]).
Qed.
Definition a_unit : uobj :=
  let u := new_unit 7 in
  UObj 7 (USettings None (Some (txt "C")) (Some (txt "f.c")) None None (Some (txt "h")) 0) (uo_revision u) None [txt "pos:tabs"; txt "8"] 0 None None None true true
    (txt "doc") None None None (0, 0)%Z (0, 0)%Z (-1)%Z ([], 0%Z).
Definition one (x : bytes) : item := Item (TXPath (xpath_plain x)) [].
Definition outcome_of (o : outcome answer) : option (N * list bytes) :=
  match o with Ok (Answer _ (Some r)) => Some (t_type r, map uo_srcml (t_units r)) | _ => None end.

Definition units_are (o : outcome answer) (l : list bytes) : Prop := exists r, o = Ok (Answer ST_OK (Some r)) /\ t_type r = RESULT_UNITS /\ map uo_srcml (t_units r) = l.
Ltac now_units := eexists; split; [vm_compute; reflexivity|]; split; vm_compute; reflexivity.
Lemma found_at x t rs : beqb x (txt "count(//name)") = false -> map root_id rs = found x [t] -> Forall (fun r => In r (nodes_of t)) rs -> applied lib (one x) t rs.
Proof.
  intros B M F. apply (Found lib (one x) t (xpath_plain x) (found x [t]) rs); auto. cbn [xpath_eval lib x_xpath xpath_plain]. rewrite B. reflexivity.
Qed.
Ltac find_one := match goal with |- In ?r ?l => let l' := eval vm_compute in l in change (In r l'); repeat (try (left; reflexivity); right) end.
Ltac found_here := apply found_at; [vm_compute; reflexivity|vm_compute; reflexivity|repeat (constructor; [find_one|]); constructor].
Definition class1 := el 10 (txt "class") [at_ 11 (txt "type") (txt "t"); el 12 (txt "name") [te 13 (txt "a<b")]].
Definition class2 := el 14 (txt "class") [el 15 (txt "name") [te 16 (txt "c")]; el 17 (txt "block") []].
Definition inner_f := el 6 (txt "function") [el 7 (txt "name") [te 8 (txt "g")]].
Definition outer_f := el 2 (txt "function") [el 3 (txt "name") [te 4 (txt "f")]; el 5 (txt "block") [inner_f]].
Lemma classes : applied lib (one (txt "class")) doc [class1; class2].
Proof. found_here. Qed.
Lemma functions : applied lib (one (txt "function")) doc [outer_f; inner_f].
Proof. found_here. Qed.
(** the first result of the first has no match for the second *)
Lemma first_empty : chain lib [one (txt "class"); one (txt "block")] [doc] [el 17 (txt "block") []] /\
  apply_transforms lib [one (txt "class"); one (txt "block")] a_unit true = Ok (Answer ST_OK (Some (Result RESULT_NONE [] false None None))).
Proof.
  split; [|vm_compute; reflexivity]. apply (Next lib _ _ [doc] [[class1; class2]]); [constructor; [exact classes|constructor]|].
  apply (Next lib _ _ [class1; class2] [[]; [el 17 (txt "block") []]]); [|constructor]. constructor; [found_here|]. constructor; [found_here|constructor].
Qed.
(** the second has none *)
Lemma second_empty : chain lib [one (txt "class"); one (txt "type")] [doc] [at_ 11 (txt "type") (txt "t")] /\
  apply_transforms lib [one (txt "class"); one (txt "type")] a_unit true = Ok (Answer ST_OK (Some (Result RESULT_NONE [] false None None))).
Proof.
  split; [|vm_compute; reflexivity]. apply (Next lib _ _ [doc] [[class1; class2]]); [constructor; [exact classes|constructor]|].
  apply (Next lib _ _ [class1; class2] [[at_ 11 (txt "type") (txt "t")]; []]); [|constructor]. constructor; [found_here|]. constructor; [found_here|constructor].
Qed.
(** a function inside a function, and a schema both are valid for *)
Lemma nested : chain lib [one (txt "function"); Item (TRng 0) []] [doc] [outer_f; inner_f] /\
  shown lib outer_f = txt "<function><name>f</name><block><function><name>g</name></function></block></function>" /\
  units_are (apply_transforms lib [one (txt "function"); Item (TRng 0) []] a_unit true)
    [txt "<function><name>f</name><block></block></function>"; txt "<function><name>g</name></function>"].
Proof.
  split; [|split; [vm_compute; reflexivity|now_units]]. apply (Next lib _ _ [doc] [[outer_f; inner_f]]); [constructor; [exact functions|constructor]|].
  apply (Next lib _ _ [outer_f; inner_f] [[outer_f]; [inner_f]]); [|constructor]. repeat constructor; apply (Valid lib _ _ 0); reflexivity.
Qed.
(** a stylesheet for each of two results *)
Definition sheet_out : list tree := sheets 0 20.
Lemma freed : chain lib [one (txt "class"); Item (TXslt 0) []] [doc] (sheet_out ++ sheet_out) /\
  apply_transforms lib [one (txt "class"); Item (TXslt 0) []] a_unit true = UB.
Proof.
  split; [|vm_compute; reflexivity]. apply (Next lib _ _ [doc] [[class1; class2]]); [constructor; [exact classes|constructor]|].
  apply (Next lib _ _ [class1; class2] [sheet_out; sheet_out]); [|constructor].
  constructor; [|constructor; [|constructor]]; (apply (Styled lib _ _ 0 20); [reflexivity|cbn; repeat (constructor; try lia)|reflexivity|repeat constructor]).
Qed.
Lemma no_caller : apply_transforms lib [one (txt "enum")] a_unit false = UB /\ apply_transforms lib [one (txt "class")] a_unit false = Ok (Answer ST_OK None).
Proof. split; vm_compute; reflexivity. Qed.
Lemma siblings : xslt_run lib 1 [] 20 [doc] = Some [el 20 (txt "one") []; te 21 (txt "t"); el 22 (txt "two") []] /\
  units_are (apply_transforms lib [Item (TXslt 1) []] a_unit true) [txt "<one></one>"] /\
  xslt_run lib 2 [] 20 [doc] = Some [el 20 (txt "one") []; el 21 (txt "two") []] /\
  units_are (apply_transforms lib [Item (TXslt 2) []] a_unit true) [txt "<one></one>"; txt "<two></two>"].
Proof. split; [reflexivity|]. split; [now_units|]. split; [reflexivity|now_units]. Qed.
(** marks *)
Lemma twice : exists s, units_are (apply_transforms lib (truns [AppendAttribute (txt "block") (txt "p") (txt "u") (txt "m") (txt "a"); AppendAttribute (txt "block") (txt "p") (txt "u") (txt "m") (txt "b")] []) a_unit true) [s] /\
  exists a b, s = a ++ txt "<block p:m=""a"" p:m=""b"">" ++ b.
Proof.
  eexists. split; [now_units|]. exists (txt "<unit language=""C""><function><name>f</name>"). eexists. cbn. reflexivity.
Qed.

Lemma bare_attribute : exists s, units_are (apply_transforms lib (truns [AppendElement (txt "block") (txt "p") (txt "u") (txt "e"); AppendAttribute (txt "block") (txt "q") (txt "w") (txt "m") (txt "v")] []) a_unit true) [s] /\
  exists a b, s = a ++ txt "<p:e m=""v""><block></block></p:e>" ++ b.
Proof.
  eexists. split; [now_units|]. exists (txt "<unit language=""C""><function><name>f</name><p:e m=""v""><block><function><name>g</name></function></block></p:e></function><!--x--><class type=""t""><name>a&lt;b</name></class><class><name>c</name>"). eexists. cbn. reflexivity.
Qed.
Lemma attribute_lost : xpath_eval lib (txt "type") [doc] = Some (XNodes (Some [11%nat])) /\ shown lib class1 = txt "<class type=""t""><name>a&lt;b</name></class>" /\
  exists s, units_are (apply_transforms lib (truns [AppendElement (txt "type") (txt "p") (txt "u") (txt "e")] []) a_unit true) [s] /\
  exists a b, s = a ++ txt "<!--x--><class><name>a&lt;b</name></class>" ++ b.
Proof.
  split; [vm_compute; reflexivity|]. split; [vm_compute; reflexivity|]. eexists. split; [now_units|].
  exists (txt "<unit language=""C""><function><name>f</name><block><function><name>g</name></function></block></function>"). eexists. cbn. reflexivity.
Qed.
Lemma text_results : units_are (apply_transforms lib [one (txt "text")] a_unit true) [txt "f"; txt "g"; txt "a<b"; txt "c"].
Proof. now_units. Qed.
Lemma attribute_results : units_are (apply_transforms lib (truns [AppendAttribute (txt "class") (txt "p") (txt "u") (txt "m") (txt "v"); AppendXPath (txt "m")] []) a_unit true)
    [txt "m=""v"""; txt "m=""v"""].
Proof. now_units. Qed.
Lemma one_number : chain lib [one (txt "function")] [doc] [outer_f; inner_f] /\ xpath_eval lib (txt "count(//name)") [outer_f] = Some (XNumber 2) /\
  xpath_eval lib (txt "count(//name)") [inner_f] = Some (XNumber 1) /\
  apply_transforms lib [one (txt "function"); one (txt "count(//name)")] a_unit true = Ok (Answer ST_OK (Some (Result RESULT_NUMBER [] false (Some 2) None))).
Proof.
  split; [|repeat split; vm_compute; reflexivity]. apply (Next lib _ _ [doc] [[outer_f; inner_f]]); [constructor; [exact functions|constructor]|constructor].
Qed.
(** an example of the hypotheses *)
Lemma found_only x t rs rs' : NoDup (ids t) -> applied lib (one x) t rs -> applied lib (one x) t rs' -> rs = rs'.
Proof.
  intros D A B. inversion A as [y l ? E1 E2 E3 E4 E5 E6|y ? ? E1 E2|y ? ? E1 E2 E2'|? ? ? E1|? E1]; try discriminate E1; injection E1 as <-; try (destruct E2; reflexivity); try (destruct E2'; reflexivity).
  inversion B as [y m ? F1 F2 F3 F4 F5 F6|y ? ? F1 F2|y ? ? F1 F2 F2'|? ? ? F1|? F1]; try discriminate F1; injection F1 as <-; try (destruct F2; reflexivity); try (destruct F2'; reflexivity).
  subst. rewrite E4 in F4. injection F4 as F4. clear -D E6 F6 F4. revert rs' F4 F6. induction rs as [|r rs IH]; intros [|q rs'] M F; try discriminate M; [reflexivity|].
  cbn in M. injection M as M1 M2. f_equal; [|exact (IH (Forall_inv_tail E6) rs' M2 (Forall_inv_tail F))].
  apply (node_unique _ _ [t]); [cbn; rewrite app_nil_r; exact D| | |exact M1]; apply (proj2 (occurs_in _ _)); exists t; (split; [left; reflexivity|]); [exact (Forall_inv E6)|exact (Forall_inv F)].
Qed.
Definition marks : item := Item (TXPath (xpath_attribute (txt "name") (txt "p") (txt "u") (txt "m") (txt "v"))) [].
Lemma doc_ids : NoDup (ids doc).
Proof. repeat (constructor; [cbn; intuition discriminate|]). constructor. Qed.
Lemma usable_here : usable lib [one (txt "class"); marks] [doc].
Proof.
  cbn [usable]. split; [|split; [exact Logic.I|]].
  - intros t [<-|[]]. exists [10; 14]%nat. split; [vm_compute; reflexivity|]. cbn [x_element x_attr_name xpath_plain]. split; [discriminate|]. intros _. split.
    + intros r W I. unfold within in W. cbn in W, I. repeat (destruct W as [<-|W]; [cbn in I |- *; try reflexivity; intuition discriminate|]). destruct W.
    + intros q r Wq Wr Iq Ir W. assert (Q : q = class1 \/ q = class2) by (unfold within in Wq; cbn in Wq; repeat (destruct Wq as [<-|Wq]; [cbn in Iq; first [left; reflexivity|right; reflexivity|intuition discriminate]|]); destruct Wq).
      unfold within in W. destruct Q as [->| ->]; cbn in W; repeat (destruct W as [<-|W]; [cbn in Ir; first [reflexivity|intuition discriminate]|]); destruct W.
  - intros rss F. inversion F as [|? rs ? ? A F']; subst. inversion F'; subst. rewrite (found_only _ _ _ _ doc_ids A classes). cbn [concat app].
    split; [|split; [exact Logic.I|intros; exact Logic.I]]. intros t [<-|[<-|[]]]; unfold fits; cbn [marks i_trans];
      (eexists; split; [vm_compute; reflexivity|]); cbn [xpath_attribute x_element x_attr_name txt]; intros r a W I C K;
      unfold within in W; cbn in W; repeat (destruct W as [<-|W]; [cbn in I, C; repeat (destruct C as [<-|C]; [try discriminate K; intuition discriminate|]); try destruct C|]); destruct W.
Qed.
Lemma even_here : even_fields a_unit [(txt "pos:tabs", txt "8")].
Proof. split; [|split; [reflexivity|repeat constructor; intros []]]. apply (NoDup_count_occ' (list_eq_dec N.eq_dec)). intros x I. revert x I. apply Forall_forall. vm_compute. repeat constructor. Qed.
Lemma chain_here : units_are (apply_transforms lib [one (txt "class"); marks] a_unit true)
  [txt "<class type=""t""><name p:m=""v"">a&lt;b</name></class>"; txt "<class><name p:m=""v"">c</name><block></block></class>"].
Proof. now_units. Qed.
Lemma extendable_here : extendable lib [one (txt "class")] [doc].
Proof.
  destruct usable_here as (A & B & _). cbn [extendable]. split; [|split; [exact Logic.I|intros; exact Logic.I]]. exact A.
Qed.
