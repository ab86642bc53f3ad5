(** Model of reading inputs from URLs: src/client/input_curl.cpp, with srcml_pipe.cpp:35-68 and its caller (create_srcml.cpp:58, 95), as a transition
    system over all interleavings of the main thread and the threads of the downloads. One transition is one critical section, one notification in it,
    or one piece of local work. External: std::mutex and std::condition_variable (spurious wake-ups are separate transitions), libcurl (for each
    download, which blocks its callback is given, with the response code at that time, what [write] returns for them, and whether the transfer
    succeeds if no callback breaks it off), and the pipe (room for [room] bytes, overrun by one write; the reading end is never closed, as
    libarchive does not close a descriptor it did not open). Not modelled: a pipe or thread that cannot be made; several stages of one input
    (decompression); that a refused input can end the program. *)
From Verif Require Import Base.
Local Open Scope N_scope.

(** A call of our_curl_write_callback (84-105): CURLINFO_RESPONSE_CODE, the bytes, and how many of them [write] takes ([None]: it fails). *)
Record block := Block { code : N; data : bytes; taken : option nat }.
(** what the callback returns: 0 if the code is not 200, or if [write] fails *)
Definition returned (b : block) : nat := if code b =? 200 then match taken b with Some n => n | None => 0%nat end else 0%nat.
Record download := Download { blocks : list block; succeeds : bool }.
(** The thread of a download (109-161): in curl_easy_perform, with the blocks to come; in the callback before goCurl, and before write; after
    curl_easy_perform: before setCurlErrors, before goCurl, before close; ended. *)
Inductive worker := WPerform (l : list block) (ok : bool) | WGo (b : block) (l : list block) (ok : bool) | WWrite (b : block) (l : list block) (ok : bool)
  | WErrors (failed : bool) | WTell (failed : bool) | WClose | WEnd.
(** its pipe: what is in it, and what was read *)
Record thread := Thread { pc : worker; pipe : bytes; got : bytes }.
(** The main thread: before input_curl for the input [k] (srcml_pipe starts the thread); in waitCurl, before the wait (48-49); waiting; woken;
    reading the pipe; at the end of the inputs. *)
Inductive main := MNext (k : nat) | MEnter (k : nat) | MWait (k : nat) | MBack (k : nat) | MRead (k : nat) | MEnd.
Record sys := Sys { urls : list download; room : nat; cl : main; go : bool; curl_errors : bool; threads : list thread; results : list bool }.
Definition start (l : list download) (room : nat) : sys := Sys l room (MNext 0) false false [] [].
Definition set_main (m : main) (s : sys) : sys := Sys (urls s) (room s) m (go s) (curl_errors s) (threads s) (results s).
Definition set_threads (l : list thread) (s : sys) : sys := Sys (urls s) (room s) (cl s) (go s) (curl_errors s) l (results s).
Definition put (i : nat) (t : thread) (s : sys) : sys := set_threads (firstn i (threads s) ++ t :: skipn (S i) (threads s)) s.
(** 53-57 goCurl: [go] is set and a waiting thread is woken *)
Definition goCurl (flag : bool) (s : sys) : sys :=
  Sys (urls s) (room s) (match cl s with MWait k => MBack k | m => m end) flag (curl_errors s) (threads s) (results s).
Definition setCurlErrors (flag : bool) (s : sys) : sys := Sys (urls s) (room s) (cl s) (go s) flag (threads s) (results s).

Definition main_step (s : sys) : option sys :=
  match cl s with
  | MNext k =>
      match nth_error (urls s) k with
      | Some d => Some (set_main (MEnter k) (set_threads (threads s ++ [Thread (WPerform (blocks d) (succeeds d)) [] []]) s))
      | None => Some (set_main MEnd s)
      end
  | MEnter k => Some (set_main (MWait k) s)
  | MWait _ => None
  | MBack k => (* 50, and the caller *)
      Some (Sys (urls s) (room s) (if go s then MRead k else MNext (S k)) (go s) (curl_errors s) (threads s) (results s ++ [go s]))
  | MRead k =>
      match nth_error (threads s) k with
      | Some (Thread w (c :: p) g) => Some (put k (Thread w [] (g ++ c :: p)) s)
      | Some (Thread WEnd [] g) => Some (set_main (MNext (S k)) s)
      | _ => None
      end
  | MEnd => None
  end.
Definition worker_step (i : nat) (s : sys) : option sys :=
  match nth_error (threads s) i with
  | None => None
  | Some (Thread w p g) =>
      let next w' := put i (Thread w' p g) s in
      match w with
      | WPerform [] ok => Some (next (WErrors (negb ok)))
      | WPerform (b :: l) ok =>
          if code b =? 200 then Some (next (WGo b l ok))
          else Some (next (if Nat.eqb (returned b) (length (data b)) then WPerform l ok else WErrors true))
      | WGo b l ok => Some (goCurl true (next (WWrite b l ok)))
      | WWrite b l ok =>
          if Nat.ltb (length p) (room s)
          then Some (put i (Thread (if Nat.eqb (returned b) (length (data b)) then WPerform l ok else WErrors true) (p ++ firstn (returned b) (data b)) g) s)
          else None
      | WErrors e => Some (setCurlErrors e (next (WTell e)))
      | WTell e => Some (goCurl (negb e) (next WClose))
      | WClose => Some (next WEnd)
      | WEnd => None
      end
  end.
(** [Quit]: the reader stops before the end of the pipe (an archive whose end comes before, an error in it) *)
Inductive label := Main | Worker (i : nat) | Spurious | Quit.
Definition step (l : label) (s : sys) : option sys :=
  match l with
  | Main => main_step s
  | Worker i => worker_step i s
  | Spurious => match cl s with MWait k => Some (set_main (MBack k) s) | _ => None end
  | Quit => match cl s with MRead k => Some (set_main (MNext (S k)) s) | _ => None end
  end.
Fixpoint steps (ls : list label) (s : sys) : option sys :=
  match ls with [] => Some s | l :: ls => match step l s with Some s' => steps ls s' | None => None end end.
