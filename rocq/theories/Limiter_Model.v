(** Model of src/client/OpenFileLimiter.hpp: any number of threads opening and closing.

    One transition is one critical section of the mutex.  External: std::mutex,
    std::condition_variable (notify_one wakes one waiting thread, whichever; spurious wake-ups). *)
From Verif Require Import Base.

(** OpenFileLimiter.hpp:32. *)
Definition MAX_OPEN_FILES := 200%Z.

(** What a thread does: the two calls, and handing something to another thread (a request in the
    write queue, whose destruction closes the archive it holds: srcml_utilities.hpp:32-37). *)
Inductive op := Open | Close | Give | Receive.
(** A thread: what it still has to do, and whether it is in cv.wait. *)
Record thread := Thread { todo : list op; asleep : bool }.
Record lim := Lim { open_files : Z; given : nat; ths : list thread }.

Definition put (i : nat) (t : thread) (l : list thread) : list thread := firstn i l ++ t :: skipn (S i) l.
Definition any_asleep (l : list thread) : bool := existsb asleep l.

(** cv.notify_one: wakes the waiting thread [j], if there is any. *)
Definition wake (j : nat) (l : list thread) : option (list thread) :=
  if any_asleep l then
    match nth_error l j with
    | Some t => if asleep t then Some (put j (Thread (todo t) false) l) else None
    | None => None
    end
  else Some l.

(** Thread [i] runs; [j] is the thread woken, if it notifies.  34-42 open, 44-50 close. *)
Definition act (i j : nat) (s : lim) : option lim :=
  match nth_error (ths s) i with
  | Some (Thread (Open :: r) false) =>
      if Z.gtb (open_files s) MAX_OPEN_FILES
      then Some (Lim (open_files s) (given s) (put i (Thread (Open :: r) true) (ths s)))
      else Some (Lim (open_files s + 1) (given s) (put i (Thread r false) (ths s)))
  | Some (Thread (Close :: r) false) =>
      match wake j (put i (Thread r false) (ths s)) with
      | Some l => Some (Lim (open_files s - 1) (given s) l)
      | None => None
      end
  | Some (Thread (Give :: r) false) => Some (Lim (open_files s) (S (given s)) (put i (Thread r false) (ths s)))
  | Some (Thread (Receive :: r) false) =>
      match given s with
      | O => None
      | S n => Some (Lim (open_files s) n (put i (Thread r false) (ths s)))
      end
  | _ => None
  end.

Inductive move := Act (i j : nat) | Spurious (i : nat).
Definition lstep (m : move) (s : lim) : option lim :=
  match m with
  | Act i j => act i j s
  | Spurious i =>
      match nth_error (ths s) i with
      | Some (Thread r true) => Some (Lim (open_files s) (given s) (put i (Thread r false) (ths s)))
      | _ => None
      end
  end.
Fixpoint lsteps (ms : list move) (s : lim) : option lim :=
  match ms with
  | [] => Some s
  | m :: ms => match lstep m s with Some s' => lsteps ms s' | None => None end
  end.

(** OpenFileLimiter.cpp:25. *)
Definition lstart (progs : list (list op)) : lim := Lim 0 0 (map (fun p => Thread p false) progs).
