(** Model of the client's parse and write queues: src/client/ParseQueue.hpp, WriteQueue.cpp,
    srcml_consume.cpp and the end of create_srcml (create_srcml.cpp:318-345), as a transition system
    over all interleavings of the main thread, the parsing threads and the writing thread.

    One transition is one mutex-protected section, one notify_one, or one piece of thread-local work.
    External: std::mutex and std::condition_variable (spurious wake-ups included), and the thread pool
    ctpl 0.0.2 (CMakeLists.txt:33): a FIFO of tasks, at most [threads] of them running; stop(true) waits
    until none is left, and without any thread it drops them.
    Not modelled: what is parsed and written, the limit on open files (Limiter_Model.v), and positions
    beyond int (more than 2^31 inputs). *)
From Verif Require Import Base.

(** srcml.h:71-87. *)
Definition STATUS_OK := 0%Z.
Definition STATUS_ERROR := 1%Z.
Definition STATUS_INVALID_ARGUMENT := 2%Z.
Definition STATUS_IO_ERROR := 5%Z.

(** * srcml_consume *)
(** What the libsrcml calls in srcml_consume return for one request. *)
Record answers := Answers
  { a_unit : bool;            (* srcml_unit_create succeeds, or the request has its unit already *)
    a_language : option Z;    (* srcml_unit_set_language, if it is called *)
    a_filename : option Z;    (* srcml_unit_set_filename, if there is a filename *)
    a_version : option Z;     (* srcml_unit_set_version, if there is a version *)
    a_parse : option Z }.     (* srcml_unit_parse_filename or _memory, if one is called *)

(** What a thread does to the write queue: push a request with this status (under the mutex),
    notify the writer, exit the process. *)
Inductive effect := Push (status : Z) | Notify | Exit.
(** WriteQueue.cpp:36-51 schedule. *)
Definition schedule (status : Z) : list effect := [Push status; Notify].

Definition failed (x : option Z) : option Z :=
  match x with Some z => if Z.eqb z STATUS_OK then None else Some z | None => None end.

(** srcml_consume.cpp:37-131.  [status]: the request's status when the task runs. *)
Definition srcml_consume (status : Z) (a : answers) : list effect :=
  if negb (Z.eqb status 0) then schedule status
  else if negb (a_unit a) then schedule STATUS_ERROR
  else match failed (a_language a) with Some z => schedule z | None =>
       match failed (a_filename a) with Some z => schedule z | None =>
       match failed (a_version a) with Some z => schedule z | None =>
         let st := match a_parse a with Some z => z | None => STATUS_OK end in
         if Z.eqb st STATUS_INVALID_ARGUMENT then schedule STATUS_IO_ERROR ++ [Exit]
         else schedule st
       end end end.

(** * The system *)
(** A request as handed to ParseQueue::schedule: its status then, and what parsing it will meet. *)
Record req := Req { r_name : nat; r_status : Z; r_answers : answers }.

(** A request in the system: with its position (ParseRequest.hpp, position). *)
Notation item := (nat * req)%type.
(** A request in the write queue: with the status it was pushed with. *)
Notation entry := (item * Z)%type.
Definition pos (e : entry) : nat := fst (fst e).

(** The main thread: in the loop over the inputs (create_srcml.cpp:325-340); between the push and the
    notification of a request scheduled directly (ParseQueue.hpp:50-54); in parse_queue.wait(); between
    setting [completed] and notifying (WriteQueue.cpp:53-64); in write_thread.join(); after it. *)
Inductive main := Scheduling | Direct | Waiting | Stopping | Joining | Finished.
(** The writing thread, WriteQueue.cpp:66-96: about to lock and evaluate the condition; in cv.wait;
    outside the lock with a request popped; returned. *)
Inductive writer := Checking | Sleeping | Writing (e : entry) | Returned.

Record sys := Sys
  { script : list req;       (* inputs not yet scheduled *)
    phase : main;
    counter : nat;           (* ParseQueue::counter *)
    pool : list item;        (* tasks waiting in the pool *)
    busy : list (item * list effect);   (* tasks running, with what they still have to do *)
    queue : list entry;      (* WriteQueue::q, in no particular order *)
    completed : bool;
    wr : writer;
    position : nat;          (* the local of WriteQueue::process *)
    total : nat;
    written : list entry;    (* handed to srcml_write_request, in order *)
    exited : bool }.

Definition set_main sc ph c s := Sys sc ph c (pool s) (busy s) (queue s) (completed s) (wr s) (position s) (total s) (written s) (exited s).
Definition set_pool p b s := Sys (script s) (phase s) (counter s) p b (queue s) (completed s) (wr s) (position s) (total s) (written s) (exited s).
Definition set_queue q s := Sys (script s) (phase s) (counter s) (pool s) (busy s) q (completed s) (wr s) (position s) (total s) (written s) (exited s).
Definition set_completed s := Sys (script s) (phase s) (counter s) (pool s) (busy s) (queue s) true (wr s) (position s) (total s) (written s) (exited s).
Definition set_wr w s := Sys (script s) (phase s) (counter s) (pool s) (busy s) (queue s) (completed s) w (position s) (total s) (written s) (exited s).
Definition set_written p t l s := Sys (script s) (phase s) (counter s) (pool s) (busy s) (queue s) (completed s) (wr s) p t l (exited s).
Definition set_exited s := Sys (script s) (phase s) (counter s) (pool s) (busy s) (queue s) (completed s) (wr s) (position s) (total s) (written s) true.

(** std::priority_queue with the order of WriteQueue.cpp:27-31: the entry with the least position, and
    the rest. *)
Fixpoint pop_min (l : list entry) : option (entry * list entry) :=
  match l with
  | [] => None
  | e :: r =>
      match pop_min r with
      | None => Some (e, [])
      | Some (m, r') => if pos m <? pos e then Some (m, e :: r') else Some (e, r)
      end
  end.

(** cv.notify_one: only the writer ever waits. *)
Definition notify s := match wr s with Sleeping => set_wr Checking s | _ => s end.

(** ParseQueue.hpp:40-56 schedule. *)
Definition main_schedule (r : req) (rest : list req) s :=
  let p := S (counter s) in
  if negb (Z.eqb (r_status r) 0)
  then set_queue (queue s ++ [((p, r), r_status r)]) (set_main rest Direct p s)
  else set_pool (pool s ++ [(p, r)]) (busy s) (set_main rest Scheduling p s).

Definition is_empty {A} (l : list A) := match l with [] => true | _ => false end.

(** One step of the main thread; none while it is blocked. *)
Definition main_step (threads : nat) s : option sys :=
  match phase s with
  | Scheduling => match script s with
                  | r :: rest => Some (main_schedule r rest s)
                  | [] => Some (set_main [] Waiting (counter s) s)
                  end
  | Direct => Some (set_main (script s) Scheduling (counter s) (notify s))
  | Waiting =>
      if is_empty (busy s) && (is_empty (pool s) || (threads =? 0))
      then Some (set_completed (set_pool [] (busy s) (set_main (script s) Stopping (counter s) s)))
      else None
  | Stopping => Some (set_main (script s) Joining (counter s) (notify s))
  | Joining => match wr s with Returned => Some (set_main (script s) Finished (counter s) s) | _ => None end
  | Finished => None
  end.

(** A thread of the pool takes a task. *)
Definition take_step (threads : nat) s : option sys :=
  match pool s with
  | t :: rest =>
      if length (busy s) <? threads
      then Some (set_pool rest (busy s ++ [(t, srcml_consume (r_status (snd t)) (r_answers (snd t)))]) s)
      else None
  | [] => None
  end.

(** The [i]th running task does its next step, or returns. *)
Definition task_step (i : nat) s : option sys :=
  match nth_error (busy s) i with
  | None => None
  | Some (t, es) =>
      let others x := firstn i (busy s) ++ x ++ skipn (S i) (busy s) in
      match es with
      | [] => Some (set_pool (pool s) (others []) s)
      | Push st :: es => Some (set_queue (queue s ++ [(t, st)]) (set_pool (pool s) (others [(t, es)]) s))
      | Notify :: es => Some (notify (set_pool (pool s) (others [(t, es)]) s))
      | Exit :: es => Some (set_exited s)
      end
  end.

(** WriteQueue.cpp:66-96 process.  [ordered] is the constructor's argument. *)
Definition writer_step (ordered : bool) s : option sys :=
  match wr s with
  | Checking =>
      match pop_min (queue s) with
      | None => Some (set_wr (if completed s then Returned else Sleeping) s)
      | Some (e, rest) =>
          if ordered && negb (pos e =? position s + 1) then Some (set_wr Sleeping s)
          else Some (set_wr (Writing e) (set_queue rest s))
      end
  | Writing e =>
      Some (set_wr Checking (set_written (position s + 1)
              (if Z.eqb (snd e) STATUS_OK then total s + 1 else total s) (written s ++ [e]) s))
  | Sleeping | Returned => None
  end.

Inductive label := Main | Take | Task (i : nat) | Writer | Spurious.
Record conf := Conf { threads : nat; ordered : bool }.

(** A transition; nothing happens once the process has exited. *)
Definition step (c : conf) (l : label) (s : sys) : option sys :=
  if exited s then None else
  match l with
  | Main => main_step (threads c) s
  | Take => take_step (threads c) s
  | Task i => task_step i s
  | Writer => writer_step (ordered c) s
  | Spurious => match wr s with Sleeping => Some (set_wr Checking s) | _ => None end
  end.

Fixpoint steps (c : conf) (ls : list label) (s : sys) : option sys :=
  match ls with
  | [] => Some s
  | l :: ls => match step c l s with Some s' => steps c ls s' | None => None end
  end.

(** The state in which create_srcml starts the loop. *)
Definition start (inputs : list req) : sys :=
  Sys inputs Scheduling 0 [] [] [] false Checking 0 0 [] false.
