(** Model of extracting source code from srcML: src/client/create_src.cpp, src_output_filesystem.cpp, src_output_libarchive.cpp, src_archive.cpp:70-106.
    Simplified: the units an archive gives are a list (C27, C39), none if it cannot be opened; character encoders are a function; failures to
    write are left out. *)
From Verif Require Import Base Text_Model Api_Model Writer_Model Input_Model.
Local Open Scope N_scope.

(** what is asked of a unit read: name, language, encoding stored with it, source *)
Record sunit := SUnit { su_name : option bytes; su_language : option bytes; su_encoding : option bytes; su_source : bytes }.
(** --unit, --eol, --src-encoding; the encoders *)
Record extraction := Extraction { x_unit : Z; x_eol : option eol; x_encoding : option bytes; x_encode : bytes -> bytes -> bytes }.
(** srcml_unit.cpp:667-726, [archive]: the archive's source encoding *)
Definition unparsed (x : extraction) (e : option eol) (archive : option bytes) (u : sunit) : bytes :=
  x_encode x (default_to (su_encoding u) (default_to archive (txt "ISO-8859-1"))) (unparse (match e with Some e => e | None => EOL_AUTO end) (su_source u)).

(** how the command ends: exit(1) or on *)
Inductive ending := Goes | Exits.
(** create_src.cpp:113-118, 162-167: for (i = 1; i < unit; ++i) *)
Fixpoint skips (n : nat) (l : list sunit) : option (list sunit) :=
  match n, l with O, _ => Some l | S n, _ :: l => skips n l | S _, [] => None end.
(** 120-155: what is written, each with the file descriptor; [count] *)
Fixpoint units_out (x : extraction) (fd : Z) (count : nat) (l : list sunit) : list (Z * bytes) * ending :=
  match l with
  | [] => ([], if (x_unit x =? 0)%Z then Goes else Exits)
  | u :: l =>
      let w := (match count with O => [] | S _ => [(1%Z, [0])] end) ++ [(fd, unparsed x (x_eol x) (x_encoding x) u)] in
      if (x_unit x =? 0)%Z then let r := units_out x fd (S count) l in (w ++ fst r, snd r) else (w, Goes)
  end.
(** 104-155: one input, a file descriptor *)
Definition to_fd (x : extraction) (fd : Z) (l : list sunit) : list (Z * bytes) * ending :=
  match skips (Z.to_nat (x_unit x - 1)) l with None => ([], Exits) | Some l => units_out x fd 0 l end.
(** 157-190: one input, a file: its contents *)
Definition to_file (x : extraction) (l : list sunit) : option bytes :=
  match skips (Z.to_nat (x_unit x - 1)) l with Some (u :: _) => Some (unparsed x (x_eol x) (x_encoding x) u) | _ => None end.

(** src_output_filesystem.cpp:27-66: of each unit with a name, the directory made, the file and its contents *)
Fixpoint to_directory (x : extraction) (dir : bytes) (l : list sunit) : list (bytes * bytes * bytes) :=
  match l with
  | [] => []
  | u :: l => match su_name u with
              | None => to_directory x dir l
              | Some f => (output_path dir f, output_file dir f, unparsed x None None u) :: to_directory x dir l
              end
  end.
(** create_src.cpp:93-103: all inputs *)
Definition to_directories (x : extraction) (dir : bytes) (inputs : list (list sunit)) : list (bytes * bytes * bytes) := flat_map (to_directory x dir) inputs.

(** src_archive.cpp:70-75, 99-106; find(NULL) makes a string of a null pointer *)
Definition std_extension (l : option bytes) : outcome bytes :=
  match l with
  | None => UB
  | Some l => Ok (if beqb l (txt "C") then txt ".c" else if beqb l (txt "C++") then txt ".cpp" else if beqb l (txt "C#") then txt ".cs"
                  else if beqb l (txt "Java") then txt ".java" else [])
  end.
(** src_output_libarchive.cpp:41-52, [n]: unitcounter *)
Definition entry_name (n : nat) (u : sunit) : outcome bytes :=
  match default_to (su_name u) [] with
  | [] => obind (std_extension (su_language u)) (fun e => Ok (txt "srcml_unit_" ++ dec_of (N.of_nat n) ++ e))
  | f => Ok f
  end.
(** 35-84: the entries, the size being strlen of the buffer (srcml_unit.cpp:789) *)
Fixpoint to_entries (x : extraction) (n : nat) (l : list sunit) : outcome (list (bytes * bytes)) :=
  match l with
  | [] => Ok []
  | u :: l => obind (entry_name (S n) u) (fun f => obind (to_entries x (S n) l) (fun r => Ok ((f, upto_nul (unparsed x None None u)) :: r)))
  end.
(** create_src.cpp:223-231: all inputs into one archive *)
Fixpoint to_libarchive (x : extraction) (inputs : list (list sunit)) : outcome (list (bytes * bytes)) :=
  match inputs with
  | [] => Ok []
  | l :: r => obind (to_entries x 0 l) (fun a => obind (to_libarchive x r) (fun b => Ok (a ++ b)))
  end.
