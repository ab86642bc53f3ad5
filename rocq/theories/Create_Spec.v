(** Specification of creating srcML (C57): the sources of the inputs, the settings, and the document. *)
From Verif Require Import Base Text_Model Text_Spec Api_Model Api_Spec Writer_Model Writer_Spec Archive_Model Archive_Spec Input_Model Create_Model.
Local Open Scope N_scope.

(** ** Sources *)
(** the sources libarchive finds in an input *)
Definition found (e : entries) : list creq :=
  match e with Opened _ es => flat_map (fun x => match x with ESource q => [q] | _ => [] end) es | _ => [] end.
(** the sources of an input, in order; --unit selects one of an srcML input *)
Fixpoint sources (i : input) : list creq :=
  match i with
  | ISrcml O (Some s) => si_units s
  | ISrcml (S k) (Some s) => match nth_error (si_units s) k with Some q => [q] | None => [] end
  | ISrcml _ None => []
  | IText qs => qs
  | IList _ items => (fix go (l : list input) := match l with [] => [] | i :: l => sources i ++ go l end) items
  | IDirectory es => flat_map found es
  | IFile q => [q]
  | IEntries e => found e
  end.
Definition all_sources (ins : list (input_src * input)) : list creq := flat_map (fun x => sources (snd x)) ins.
(** the units a source gives: the result of the transformations, or its own unit *)
Definition units_of (q : creq) : list cunit :=
  match q with
  | Parsed (RUnits us) u => match us, u with [], Some v => [v] | _, _ => us end
  | Parsed NoResults (Some v) => [v]
  | _ => []
  end.
(** the result is text *)
Definition scalar (q : creq) : bool := match q with Parsed (RBool _ | RNumber _ | RString _) _ => true | _ => false end.
Definition several (q : creq) : bool := match units_of q with _ :: _ :: _ => true | _ => false end.

(** ** Inputs *)
(** the inputs that are not lists *)
Fixpoint leaves (i : input) : list input :=
  match i with IList _ items => (fix go (l : list input) := match l with [] => [] | i :: l => leaves i ++ go l end) items | i => [i] end.
Definition all_leaves (ins : list (input_src * input)) : list input := flat_map (fun x => leaves (snd x)) ins.
Definition is_srcml (i : input) : bool := match i with ISrcml _ _ => true | _ => false end.
(** A file that is not a container has at most one source, and a solitary srcML document one unit. *)
Definition one_source (e : entries) : Prop := match e with Opened false _ => (length (found e) <= 1)%nat | _ => True end.
Definition sound (i : input) : Prop :=
  match i with
  | ISrcml _ (Some s) => si_solitary s = true -> (length (si_units s) <= 1)%nat
  | IEntries e => one_source e
  | _ => True
  end.
(** an input that by itself asks for an archive *)
Definition container (i : input) : bool := match i with IEntries (Opened true (_ :: _)) => true | _ => false end.
Definition plural (r : crequest) (i : input) : bool :=
  match i with
  | ISrcml 0 (Some s) => c_output_xml r && negb (si_solitary s)
  | IText (_ :: _ :: _) => true
  | IList _ _ | IDirectory _ => true
  | i => container i
  end.

(** ** Settings *)
(** a single input that is not a directory, a file list or a file with the extension of an archive, without --archive *)
Definition single (r : crequest) (ins : list (input_src * input)) : option input :=
  match ins with [(s, i)] => if lone r [s] then Some i else None | _ => None end.
(** is the document an archive? *)
Definition as_archive (r : crequest) (ins : list (input_src * input)) : bool :=
  match single r ins with Some i => plural r i | None => true end || existsb several (all_sources ins).
Definition with_hash (r : crequest) (ins : list (input_src * input)) : bool :=
  match single r ins with Some i => c_hash r || container i | None => true end.
(** namespaces, as (URI, prefix): those of the options, then those of srcML inputs if the output is to be srcML *)
Definition input_namespaces (r : crequest) (i : input) : list (bytes * bytes) :=
  match i with
  | ISrcml _ (Some s) => map (fun n => (snd n, fst n)) (if c_revision r then filter (fun n => negb (beqb (snd n) DIFF_URI)) (si_namespaces s) else si_namespaces s)
  | _ => []
  end.
Definition registered (r : crequest) (ins : list (input_src * input)) : list (bytes * bytes) :=
  map (fun n => (snd n, fst n)) (c_xmlns r) ++ (if c_output_xml r then flat_map (input_namespaces r) (all_leaves ins) else []).
Definition has_uri (u : bytes) (l : list (bytes * bytes)) : bool := existsb (fun n => beqb u (fst n)) l.
(** the url: that of --url, or the name of the single source archive without leading dots and slashes *)
Definition is_url (r : crequest) (ins : list (input_src * input)) (v : option bytes) : Prop :=
  match c_url r, ins with
  | Some u, _ => v = Some (uri_resource u)
  | None, [(s, _)] =>
      match in_archives s with
      | [] => v = None
      | _ => exists lead c rest, uri_resource (in_filename s) = lead ++ c :: rest /\ Forall (fun x => x = 46 \/ x = 47) lead /\ c <> 46 /\ c <> 47 /\ v = Some (c :: rest)
      end
  | None, _ => v = None
  end.
(** the option bits *)
Definition option_bit (r : crequest) (ins : list (input_src * input)) (b : N) : bool :=
  let regs := registered r ins in
  if b =? 1 then c_no_decl r
  else if b =? 2 then c_position r || has_uri POSITION_URI regs
  else if b =? 3 then c_cpp r || has_uri CPP_URI regs
  else if b =? 4 then c_text_else r
  else if b =? 5 then c_if0 r
  else if b =? 8 then true                              (* namespace declarations *)
  else if b =? 11 then has_uri ERROR_URI regs
  else if b =? 13 then c_cpp r || has_uri CPP_URI regs  (* the cpp namespace is declared *)
  else if b =? 14 then as_archive r ins
  else if b =? 15 then with_hash r ins
  else false.
(** --register-ext ext=language; without '=' the text is both *)
Definition maps (e ext l : bytes) : Prop := (no_byte 61 ext /\ e = ext ++ [61] ++ l) \/ (no_byte 61 e /\ e = ext /\ e = l).
(** the settings a request asks for *)
Record requested (r : crequest) (ins : list (input_src * input)) (a : archive) : Prop := Requested {
  d_encoding : a_encoding a = c_xml_encoding r;
  d_src_encoding : a_src_encoding a = c_src_encoding r;
  d_language : a_language a = c_language r;
  d_url : is_url r ins (a_url a);
  d_version : a_version a = c_version r;
  d_tabstop : a_tabstop a = c_tabs r;
  d_options : forall b, N.testbit (a_options a) b = option_bit r ins b;
  d_prefix : forall u, prefix_from_uri a u = or_else (last_value u (registered r ins)) (if bytes_dec u SRC_URI then Some [] else None);
  d_uris : uris a = SRC_URI :: first_seen [SRC_URI] (map fst (registered r ins));
  d_extensions : forall f ext, extension_of f ext ->
    (exists pre e post l, c_ext r = pre ++ e :: post /\ maps e ext l /\ (forall e' l', In e' post -> ~ maps e' ext l') /\ check_extension a f = Ok (Some l)) \/
    ((forall e l, In e (c_ext r) -> ~ maps e ext l) /\ check_extension a f = Ok (builtin ext));
  d_rest : a_pi a = None /\ a_macros a = [] /\ a_revision a = Some VERSION_STRING /\ a_revision_number a = None }.

(** ** The document *)
(** the archive a unit belongs to: its own, or the output archive *)
Definition owner (a : archive) (u : cunit) : archive := match fst u with Some ua => ua | None => a end.
(** these units, with their contents *)
Definition readings (a : archive) (us : list cunit) (xs : list (archive * uobj * option bytes)) : Prop :=
  Forall2 (fun u x => fst x = (owner a u, snd u) /\ good_unit x) us xs.
(** the document when the archive is not closed but only freed: no blank line after the last unit, and nothing at all without a unit *)
Definition unfinished (a : archive) (us : list (archive * uobj * option bytes)) : bytes :=
  match us with
  | [] => []
  | _ => xml_declaration a ++ unit_xml (root_tag a []) (element_name (root_namespaces a)) (Some (flat_map (fun x => [10; 10] ++ unit_doc a 1 x) us)) ++ [10]
  end.
Definition document (closed : bool) (a : archive) (us : list (archive * uobj * option bytes)) : bytes :=
  if is_archive a then (if closed then archive_doc a [] us else unfinished a us)
  else match us with [] => if closed then xml_declaration a else [] | x :: _ => solitary_doc a x end.

(** ** Runs *)
(** files that cannot be read give a message *)
Fixpoint complains (i : input) : bool :=
  match i with
  | ISrcml _ s => match s with None => true | Some _ => false end
  | IList ok items => negb ok || (fix go (l : list input) := match l with [] => false | i :: l => complains i || go l end) items
  | IDirectory es => existsb (fun e => match e with Unopened => true | _ => false end) es
  | IEntries Unopened => true
  | _ => false
  end.
(** the document is closed unless there was a message; with a file list always *)
Definition ends_well (ins : list (input_src * input)) : bool :=
  negb (existsb (fun x => complains (snd x)) ins || existsb warns (all_sources ins)) || existsb (fun x => beqb (in_protocol (fst x)) (txt "filelist")) ins.
(** the request is accepted, no input is refused, and [t] is one of the orders of the calls of the threads *)
Definition starts (r : crequest) (ins : list (input_src * input)) (t : list eop) : Prop :=
  exists cs ms warned filelist, setup r (map fst ins) = Ok (Some cs) /\ handle r ins = Some (ms, warned, false, filelist) /\ interleave (c_mode r) ms [] t.
(** srcML to be read as srcML is the first input, and without -X there is only source code *)
Definition ordered (r : crequest) (ins : list (input_src * input)) : Prop :=
  if c_output_xml r then forallb (fun i => negb (is_srcml i)) (tl (all_leaves ins)) = true
  else forallb (fun i => negb (is_srcml i)) (all_leaves ins) = true.
(** each input is what its kind of source asks for *)
Definition fits (verbose : bool) (ins : list (input_src * input)) : Prop := Forall (fun x => handler verbose (fst x) = kind_of (snd x) /\ sound (snd x)) ins.

(** ** Text *)
(** a text as a line: a newline is added unless it ends with one *)
Definition line (s : bytes) : bytes := s ++ match rev s with 10 :: _ => [] | _ => [10] end.
(** what is written for a source when the results are text, or the outer or inner XML of units is asked for; [None]: nothing *)
Definition printed (m : cmode) (q : creq) (s : option bytes) : Prop :=
  match q with
  | Failed _ => s = None
  | Parsed (RBool b) _ => s = Some ((if b then txt "true" else txt "false") ++ [10])
  | Parsed (RNumber n) _ => exists d, n = Some d /\ s = Some (d ++ [10])
  | Parsed (RString x) _ => x <> [] /\ s = Some (line x)
  | Parsed (RUnits (_ :: _)) _ => False
  | Parsed _ None => s = None
  | Parsed _ (Some (_, v)) =>
      match m with
      | Plain => False
      | Fragment => exists x, outer v = Ok x /\ x <> [] /\ s = Some (line x)
      | Raw => exists x, inner v = Ok x /\ s = Some (match x with [] => [] | _ => line x end)
      end
  end.
Definition text_of (xs : list (option bytes)) : bytes := flat_map (fun x => match x with Some s => s | None => [] end) xs.
