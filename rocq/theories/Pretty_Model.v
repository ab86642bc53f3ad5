(** Model of the client's metadata formats: src/client/srcml_pretty.cpp and the queries in
    src/client/srcml_display_metadata.cpp:176-238.  External: reading the archive (what its accessors
    return is a record here). *)
From Verif Require Import Base Text_Model Writer_Model.

(** * The template *)
(** srcml_pretty.hpp:33-41. *)
Record template := Template { tm_header : option bytes; tm_body : option bytes; tm_footer : option bytes }.
Definition no_template : template := Template None None None.
Definition erase_at (p : nat) (t : bytes) : bytes := firstn p t ++ skipn (S p) t.
(** srcml_pretty.cpp:77-85, for one of the braces, found at [pos] in the template as given: "%{" and "%}".
    Without the brace, npos - 1 is read, two bytes before the string: [stray]; erase would throw. *)
Definition brace_seen (stray : N) (t : bytes) (pos : option nat) : outcome (bytes * option nat) :=
  match pos with
  | None => if (stray =? 37)%N then UB else Ok (t, None)
  | Some 0 => Ok (t, pos)
  | Some (S p) => if (nth p t 0 =? 37)%N then Ok (erase_at p t, None) else Ok (t, pos)
  end.
(** substr with a count; npos is no bound. *)
Definition substr (t : bytes) (pos : nat) (n : option nat) : bytes :=
  match n with None => skipn pos t | Some n => firstn n (skipn pos t) end.
(** 69-118: split_template_sections.  Without one of the braces a message is written and nothing is set. *)
Definition split_sections (stray : N) (t : bytes) : outcome template :=
  let hp := strchr t 123 in
  let fp := strchr t 125 in
  obind (brace_seen stray t fp) (fun '(t, fp) =>
  obind (brace_seen stray t hp) (fun '(t, hp) =>
  match hp, fp with
  | None, None => Ok (Template None (Some t) None)
  | Some h, Some f =>
      Ok (Template (match h with 0 => None | S h => Some (substr t 0 (Some h)) end)
            (if h + 2 <=? f then Some (substr t (h + 2) (if f - h <? 3 then None else Some (f - h - 3))) else None)
            (if length t <? f + 2 then None else Some (substr t (f + 2) None)))
  | _, _ => Ok no_template
  end)).
(** 30-39: expand_namespace. *)
Fixpoint expand_ns (n : nat) : bytes :=
  match n with 0 => [] | 1 => txt "%s" | S n => txt "%s" ++ [32%N] ++ expand_ns n end.
(** 151-161: the variants of %N; what follows it, and the argument. *)
Definition ns_variant (r : bytes) : bytes * bytes :=
  match r with
  | 58%N :: 117%N :: r' => match r' with 58%N :: 112%N :: r'' => (txt "N:u:p", r'') | _ => (txt "N:u", r') end
  | 58%N :: 112%N :: r' => (txt "N:p", r')
  | _ => (txt "N", r)
  end.
(** 120-171: parse_templates, from position [length pre] on; the result is the format and its arguments, or
    the position of the error.  The loop ends, see C32_no_fuel. *)
Inductive parsed := Parsed (format : bytes) (args : list bytes) | BadFormat (at_ : nat) | NoFuel.
Fixpoint parse_section (fuel : nat) (allowed : bytes) (ns_size : nat) (pre rest : bytes) (args : list bytes) : parsed :=
  match fuel with
  | 0 => NoFuel
  | S fuel =>
      match strchr rest 37 with
      | None => Parsed (pre ++ rest) args
      | Some p =>
          match skipn (S p) rest with
          | [] => Parsed (pre ++ rest) args
          | c :: r =>
              if (c =? 37)%N || (c =? 115)%N then parse_section fuel allowed ns_size (pre ++ firstn p rest ++ [37%N]) (c :: r) args
              else if negb (existsb (N.eqb c) allowed) then BadFormat (S (length pre + p))
              else
                let '(arg, r') := if (c =? 78)%N then ns_variant r else ([c], r) in
                let text := (if (c =? 78)%N then expand_ns ns_size else txt "%s") ++ r' in
                parse_section fuel allowed ns_size (pre ++ firstn p rest ++ firstn 1 text) (skipn 1 text) (args ++ [arg])
          end
      end
  end.
Definition parse_template (allowed : bytes) (ns_size : nat) (t : bytes) : parsed :=
  parse_section (S (length t * S (S ns_size))) allowed ns_size [] t [].
(** 46-67: pretty_print.  After a percent sign at the end the terminator is skipped. *)
Fixpoint print_format (f : bytes) (args : list bytes) : outcome bytes :=
  match f with
  | [] => Ok []
  | c :: r =>
      if (c =? 37)%N then
        match r with
        | [] => UB
        | d :: r' =>
            if negb (d =? 37)%N
            then match args with
                 | v :: args => obind (print_format r' args) (fun o => Ok (v ++ o))
                 | [] => obind (print_format r' args) (fun o => Ok (d :: o))
                 end
            else obind (print_format r' args) (fun o => Ok (d :: o))
        end
      else obind (print_format r args) (fun o => Ok (c :: o))
  end.

(** * The metadata *)
Record umeta := UMeta { um_filename : option bytes; um_hash : option bytes; um_language : option bytes;
  um_encoding : option bytes; um_timestamp : option bytes; um_version : option bytes }.
Record ameta := AMeta { ma_encoding : option bytes; ma_url : option bytes; ma_version : option bytes; ma_xml : option bytes;
  ma_namespaces : list (bytes * bytes) (* prefix, URI *); ma_units : list umeta }.
(** 173-206: acquire_metadata; without a unit, its accessors return null. *)
Definition acquire (a : ameta) (u : option umeta) (arg : bytes) : option bytes :=
  let of_unit (f : umeta -> option bytes) := match u with Some u => f u | None => None end in
  if beqb arg (txt "f") then of_unit um_filename else if beqb arg (txt "h") then of_unit um_hash
  else if beqb arg (txt "l") then of_unit um_language else if beqb arg (txt "S") then ma_encoding a
  else if beqb arg (txt "s") then of_unit um_encoding else if beqb arg (txt "t") then of_unit um_timestamp
  else if beqb arg (txt "U") then ma_url a else if beqb arg (txt "V") then ma_version a
  else if beqb arg (txt "v") then of_unit um_version else if beqb arg (txt "X") then ma_xml a
  else Some (txt "???").
(** 220-227, 284-292, 317-324: a value that is missing is empty, or nothing if it is the only one. *)
Definition param (many : bool) (v : option bytes) : list bytes :=
  match v with Some v => [v] | None => if many then [[]] else [] end.
(** 248-293: the parameters of a unit, the [i]th. *)
Definition body_params (a : ameta) (u : umeta) (i : nat) (args : list bytes) : list bytes :=
  flat_map (fun arg =>
    if beqb arg (txt "i") then [dec_of (N.of_nat i)]
    else if beqb arg (txt "N") then map (fun n : bytes * bytes => (match fst n with [] => txt "xmlns=" | p => txt "xmlns:" ++ p ++ txt "=" end) ++ snd n) (ma_namespaces a)
    else if beqb arg (txt "N:u") then map snd (ma_namespaces a)
    else if beqb arg (txt "N:p") then map fst (ma_namespaces a)
    else param (1 <? length args) (acquire a (Some u) arg)) args.
Definition header_params (a : ameta) (args : list bytes) : list bytes := flat_map (fun arg => param (1 <? length args) (acquire a None arg)) args.
Definition footer_params (a : ameta) (count : nat) (args : list bytes) : list bytes :=
  flat_map (fun arg => if beqb arg (txt "C") then [dec_of (N.of_nat count)] else param (1 <? length args) (acquire a None arg)) args.
(** 230, 295, 328: without parameters nothing is printed. *)
Definition print_section (f : bytes) (params : list bytes) : outcome bytes :=
  match params with [] => Ok [] | _ => print_format f params end.
(** 247-308: the units from the [i]th on. *)
Fixpoint print_units (a : ameta) (f : bytes) (args : list bytes) (i : nat) (us : list umeta) : outcome bytes :=
  match us with
  | [] => Ok []
  | u :: us => obind (print_section f (body_params a u i args)) (fun o => obind (print_units a f args (S i) us) (fun p => Ok (o ++ p)))
  end.
(** A section of the template: none, or its format and arguments. *)
Definition display_section (s : option (bytes * list bytes)) (params : list bytes -> list bytes) : outcome bytes :=
  match s with None => Ok [] | Some (f, args) => print_section f (params args) end.
(** 208-331: display_template, what it prints; [only]: the unit asked for, with [xml] the archive has only
    that one.  unit_count is a nat. *)
Definition display (a : ameta) (only : nat) (xml : bool) (h b f : option (bytes * list bytes)) : outcome bytes :=
  let skipping := (0 <? only) && negb xml in
  obind (display_section h (header_params a)) (fun oh =>
  obind (match b with
         | None => Ok []
         | Some (f, args) => if skipping then Ok [] else print_units a f args 0 (ma_units a)
         end) (fun ob =>
  let count := if skipping then only else match b with Some _ => length (ma_units a) - 1 | None => 0 end in
  obind (display_section f (footer_params a (S count))) (fun of_ => Ok (oh ++ ob ++ of_)))).
(** srcml_pretty.hpp:60-62. *)
Definition header_args : bytes := txt "FNSUVX".
Definition body_args : bytes := txt "FfhilNSstUVvX".
Definition footer_args : bytes := txt "CFNSUVX".
(** 333-371: srcml_pretty: what is printed, or the position of an error. *)
Inductive printed := Printed (o : bytes) | FormatError (section at_ : nat).
Definition parse_optional (allowed : bytes) (ns_size : nat) (t : option bytes) : nat -> (option (bytes * list bytes) -> outcome printed) -> outcome printed :=
  fun section k =>
  match t with
  | None => k None
  | Some t => match parse_template allowed ns_size t with
              | Parsed f args => k (Some (f, args))
              | BadFormat p => Ok (FormatError section p)
              | NoFuel => UB
              end
  end.
Definition pretty (stray : N) (a : ameta) (only : nat) (xml : bool) (t : bytes) : outcome printed :=
  let ns_size := length (ma_namespaces a) in
  obind (split_sections stray t) (fun tm =>
  parse_optional header_args ns_size (tm_header tm) 1 (fun h =>
  parse_optional body_args ns_size (tm_body tm) 2 (fun b =>
  parse_optional footer_args ns_size (tm_footer tm) 3 (fun f =>
  obind (display a only xml h b f) (fun o => Ok (Printed o)))))).

(** * The queries *)
(** srcml_display_metadata.cpp:180-238: with one query the bare value on a line, with several each with its
    name. *)
Definition query (one : bool) (name : bytes) (field : N) (asked : bool) : bytes :=
  if asked then (if one then [37%N; field; 10%N] else name ++ txt "=""" ++ [37%N; field] ++ [34%N; 10%N]) else [].
Record queries := Queries { q_encoding : bool; q_url : bool; q_filename : bool; q_language : bool; q_version : bool; q_hash : bool; q_timestamp : bool }.
Definition count_queries (q : queries) : nat := length (filter (fun b => b) [q_encoding q; q_url q; q_filename q; q_language q; q_version q; q_hash q; q_timestamp q]).
Definition query_header (q : queries) : bytes :=
  let one := count_queries q =? 1 in query one (txt "encoding") 88 (q_encoding q) ++ query one (txt "url") 85 (q_url q).
Definition query_body (q : queries) : bytes :=
  let one := count_queries q =? 1 in
  query one (txt "filename") 102 (q_filename q) ++ query one (txt "language") 108 (q_language q) ++ query one (txt "version") 118 (q_version q) ++
  query one (txt "hash") 104 (q_hash q) ++ query one (txt "timestamp") 116 (q_timestamp q).
Definition show_metadata (stray : N) (a : ameta) (only : nat) (xml : bool) (q : queries) : outcome printed :=
  match query_header q ++ query_body q with
  | [] => Ok (Printed [])
  | _ => pretty stray a only xml (query_header q ++ txt " { " ++ query_body q ++ txt " } ")
  end.
