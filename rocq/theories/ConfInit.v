(** Model of the one-time initialisation [mr_conf_init] (src/metaresc.c:1913-1979)
    called by any number of threads, as an interleaving of their atomic steps.

    The registry ([mr_conf] and all that hangs on it) is a value of an arbitrary
    type; the body of the initialisation (src/metaresc.c:1924-1974) is an arbitrary
    list of transformations of it, each of them one step of the interleaving: what
    the other modules prove about the individual steps is not needed here.

    Simplified: memory is sequentially consistent.  The code uses
    [__ATOMIC_RELAXED] and a [volatile] flag, which do not order the stores of the
    body before the store to [initialized] on weakly ordered machines; that is
    outside the model.  The body does not call [mr_conf_init] itself: the functions
    it uses go through [mr_get_td_by_name_internal] (src/metaresc.c:830, 1950,
    1961), not through [mr_get_td_by_name] (src/metaresc.c:839-843). *)
From Verif Require Import Base.

Section ConfInit.
Context {conf : Type}.

(** Where a thread is: outside of the function; before the test of line 1919;
    before the test-and-set of line 1922; before the first of the remaining steps
    of the body (src/metaresc.c:1924-1976); in the loop of line 1978. *)
Inductive pc := Outside | Entered | Claiming | Body (todo : list (conf -> conf)) | Waiting.

(** The static flags (src/metaresc.c:1916-1917), the registry, the threads, and a
    log of the calls that have returned with the registry they returned to. *)
Record state := State { initialized : bool; in_progress : bool; registry : conf;
                        threads : list pc; returned : list (nat * conf) }.

(** Thread [t] goes on at [p] (control flow of src/metaresc.c:1919-1978). *)
Definition goto (s : state) (t : nat) (p : pc) : state :=
  State (initialized s) (in_progress s) (registry s) (<[t := p]> (threads s)) (returned s).

(** Return from the function (src/metaresc.c:1920 and 1979). *)
Definition leave (s : state) (t : nat) : state :=
  State (initialized s) (in_progress s) (registry s) (<[t := Outside]> (threads s))
    (returned s ++ [(t, registry s)]).

(** One step of thread [t] (src/metaresc.c:1913-1979); a thread outside of the
    function calls it if [call] says so. *)
Definition step (body : list (conf -> conf)) (s : state) (move : nat * bool) : state :=
  let '(t, call) := move in
  match threads s !! t with
  | None => s
  | Some Outside => if call then goto s t Entered else s
  | Some Entered => if initialized s then leave s t else goto s t Claiming
  | Some Claiming =>
      if in_progress s then goto s t Waiting
      else State (initialized s) true (registry s) (<[t := Body body]> (threads s)) (returned s)
  | Some (Body (f :: todo)) =>
      State (initialized s) (in_progress s) (f (registry s)) (<[t := Body todo]> (threads s)) (returned s)
  | Some (Body []) => State true (in_progress s) (registry s) (<[t := Waiting]> (threads s)) (returned s)
  | Some Waiting => if initialized s then leave s t else s
  end.

(** The process starts with both flags false (src/metaresc.c:1916-1917) and [n]
    threads outside of the function. *)
Definition start (c : conf) (n : nat) : state := State false false c (replicate n Outside) [].

(** An execution: the moves of the scheduler, one after the other (no lines of
    its own: interleavings of src/metaresc.c:1913-1979). *)
Definition run (body : list (conf -> conf)) (s : state) (moves : list (nat * bool)) : state :=
  fold_left (step body) moves s.

(** The first [i] steps under an unending schedule (as [run]).
    An execution as a function of time: interleavings of src/metaresc.c:1913-1979. *)
Fixpoint after (body : list (conf -> conf)) (s : state) (sched : nat -> nat * bool) (i : nat) : state :=
  match i with O => s | S i => step body (after body s sched i) (sched i) end.

End ConfInit.
Arguments state : clear implicits.
Arguments pc : clear implicits.
