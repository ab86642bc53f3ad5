(** A second parse on the same unit object. *)
From Coq Require Import String.
From Verif Require Import Base Text_Model Text_Spec Api_Model Writer_Model Writer_Spec Writer_Proofs10 Root_Proofs8 Reuse_Model Reuse_Spec.
Local Open Scope N_scope.

(** an environment: any encoding asked for is used, otherwise UTF-8 for a source with a byte order mark and ISO-8859-1 for others; the digest
    names the first byte;
    a source is one element with its text, a directive if it starts with a number sign; the text is what is outside the tags *)
Definition strip : bytes -> bytes :=
  fix out (s : bytes) : bytes :=
    match s with
    | [] => []
    | c :: s => if c =? 60 then (fix tag (s : bytes) : bytes := match s with [] => [] | c :: s => if c =? 62 then out s else tag s end) s else c :: out s
    end.
Definition one_element (s : bytes) : list tree :=
  match s with
  | [] => []
  | c :: _ => if c =? 35 then [TreeElem 1 (txt "directive") [] [] [TreeText s]] else [TreeElem 0 (txt "expr") [] [] [TreeText s]]
  end.
Definition trees1 (_ : N) (_ s : bytes) : list tree := one_element (filter (fun c => negb (c =? 0)) s).
Definition digest1 (s : bytes) : bytes := match filter (fun c => negb (c =? 0)) s with [] => txt "da39" | c :: _ => txt "sha-" ++ [c] end.
Definition env1 : environment :=
  Env (fun _ => true) (fun asked s => match asked with Some x => x | None => match s with 239 :: _ => txt "UTF-8" | _ => txt "ISO-8859-1" end end)
      digest1 (fun _ _ s => flat_map tokens_of (trees1 2 [] s)) strip.
Definition arch1 : archive := Api_Model.run [EnableOption 32768] archive_create.
Definition asks1 (l : list uop) : outcome (list answer) :=
  match urun env1 arch1 (plain_unit (txt "a.c")) l with Ok (r, _) => Ok r | UB => UB end.
Definition parse1 (s : bytes) : uop := UParse 2 (Some s).
Definition q (s : string) : answer := AText (Some (txt s)).
Lemma stale_inner : asks1 [parse1 (txt "a"); UInner; parse1 (txt "b"); UInner] = Ok [AStatus ST_OK; q "<expr>a</expr>"; AStatus ST_OK; q "<expr>a</expr>"] /\
  asks1 [parse1 (txt "b"); UInner] = Ok [AStatus ST_OK; q "<expr>b</expr>"].
Proof. split; vm_compute; reflexivity. Qed.
Lemma stale_outer : exists x, asks1 [parse1 (txt "a"); UOuter; parse1 (txt "b"); UOuter] = Ok [AStatus ST_OK; AText (Some x); AStatus ST_OK; AText (Some x)] /\
  asks1 [parse1 (txt "b"); UOuter] <> Ok [AStatus ST_OK; AText (Some x)].
Proof. eexists. split; [vm_compute; reflexivity|]. intros F. vm_compute in F. discriminate F. Qed.
Lemma stale_loc : asks1 [parse1 (txt "a"); parse1 [98; 10; 99; 10]; ULoc] = Ok [AStatus ST_OK; AStatus ST_OK; ANumber 1] /\
  asks1 [parse1 [98; 10; 99; 10]; ULoc] = Ok [AStatus ST_OK; ANumber 2].
Proof. split; vm_compute; reflexivity. Qed.
Lemma stale_hash : asks1 [parse1 (txt "a"); parse1 (txt "b"); UHash] = Ok [AStatus ST_OK; AStatus ST_OK; q "sha-a"] /\
  asks1 [parse1 (txt "b"); UHash] = Ok [AStatus ST_OK; q "sha-b"].
Proof. split; vm_compute; reflexivity. Qed.
Lemma stale_encoding : asks1 [parse1 (txt "a"); parse1 [239; 187; 191; 98]; UEncoding] = Ok [AStatus ST_OK; AStatus ST_OK; q "ISO-8859-1"] /\
  asks1 [parse1 [239; 187; 191; 98]; UEncoding] = Ok [AStatus ST_OK; q "UTF-8"].
Proof. split; vm_compute; reflexivity. Qed.
Lemma stale_namespace :
  asks1 [parse1 (txt "#d"); parse1 (txt "a"); USrcml] = Ok [AStatus ST_OK; AStatus ST_OK; q "<unit xmlns=""http://www.srcML.org/srcML/src"" xmlns:cpp=""http://www.srcML.org/srcML/cpp"" revision=""1.0.0"" language=""C"" filename=""a.c"" hash=""sha-#""><expr>a</expr></unit>"] /\
  asks1 [parse1 (txt "a"); USrcml] = Ok [AStatus ST_OK; q "<unit xmlns=""http://www.srcML.org/srcML/src"" revision=""1.0.0"" language=""C"" filename=""a.c"" hash=""sha-a""><expr>a</expr></unit>"].
Proof. split; vm_compute; reflexivity. Qed.

Lemma filter_clean : forall s, clean (filter (fun c => negb (c =? 0)) s).
Proof. intros s. apply Forall_forall. intros c I. apply filter_In in I as (_ & I). intros ->. discriminate I. Qed.
Lemma env1_delivers : delivers env1 trees1.
Proof.
  intros lang enc s. split; [reflexivity|]. split; [|split].
  - unfold trees1, one_element. pose proof (filter_clean s) as C. destruct (filter _ s) as [|c r]; [constructor|].
    assert (CN : forall x, In x [txt "directive"; txt "expr"] -> clean x) by (intros x [<-|[<-|[]]]; repeat constructor; discriminate).
    destruct (c =? 35); (constructor; [|constructor]); (split; [discriminate|]); (split; [apply CN; cbn; tauto|]); (split; [constructor|]); (split; [constructor|]); (split; [exact C|exact Logic.I]).
  - intros [x|] C; cbn [settled env1]; [exact C|]. destruct s as [|c s]; [repeat constructor; discriminate|].
    destruct (N.eq_dec c 239) as [->|D]; [repeat constructor; discriminate|].
    match goal with |- clean ?x => assert (Q : x = txt "ISO-8859-1") end; [|rewrite Q; repeat constructor; discriminate].
    destruct c as [|p]; [reflexivity|]. do 8 (destruct p as [p|p|]; try reflexivity). destruct D; reflexivity.
  - cbn [digest env1]. unfold digest1. pose proof (filter_clean s) as C. destruct (filter _ s) as [|c r]; [repeat constructor; discriminate|].
    apply Forall_app. split; [repeat constructor; discriminate|]. constructor; [exact (Forall_inv C)|constructor].
Qed.
Lemma fresh_usable : usable arch1 (wu (plain_unit (txt "a.c"))) /\ unparsed (wu (plain_unit (txt "a.c"))).
Proof.
  split; [|repeat split]. destruct (usable_new (plain_unit (txt "a.c"))) as (A & B & C); [right; right; left; reflexivity|]. split; [vm_compute; reflexivity|]. split; [exact B|exact C].
Qed.
