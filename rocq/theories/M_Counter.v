(** codeprep/util.py 81-122: AtomicInteger, a counter for processes, in small steps.

    The value is the number of entries of a queue.  [put] makes the entry count at once (qsize) and a thread delivers it
    later; [get] waits until an entry has been delivered.  The lock is taken by at most one process.  Every call of a
    method is one operation; the programs of the processes are arbitrary lists of operations.  The setter of value
    (117-122) is not modelled: it replaces the queue in the process that calls it only, and nothing calls it. *)
From Verif Require Import M_Base.
From Coq Require Import ZArith.

Inductive op := OInc | ODec | OCmp (v : Z) | OGet | OVal.
Inductive rv := RInt (z : Z) | RBool (b : bool).

(** what a process is doing *)
Inductive pc :=
| Outside                       (** not in a call *)
| Entered (o : op)              (** has taken the lock *)
| Sized (o : op) (n : Z)        (** has read qsize, before get (101-102, 107-108) *)
| Changed (o : op)              (** has called put or get, before qsize (90-91, 95-96) *)
| Leaving (o : op) (r : rv).    (** knows the result and has not given back the lock *)

Record proc := { at_pc : pc; todo : list op; results : list (op * rv) }.

(** [size] is qsize, [delivered] what can be got; [hist] is only for stating theorems: the calls in the order in which
    they ended *)
Record cstate := { procs : nat -> proc; lock : option nat; size : nat; delivered : nat; hist : list (nat * (op * rv)) }.

Definition set_proc (f : nat -> proc) (i : nat) (p : proc) : nat -> proc := fun j => if Nat.eqb j i then p else f j.
Definition move (s : cstate) (i : nat) (c : pc) : nat -> proc :=
  set_proc (procs s) i {| at_pc := c; todo := todo (procs s i); results := results (procs s i) |}.
Definition with_pc (s : cstate) (i : nat) (c : pc) : cstate :=
  {| procs := move s i c; lock := lock s; size := size s; delivered := delivered s; hist := hist s |}.
Definition with_sizes (s : cstate) (a b : nat) : cstate :=
  {| procs := procs s; lock := lock s; size := a; delivered := b; hist := hist s |}.

Definition qsize (s : cstate) : Z := Z.of_nat (size s).

Inductive cstep : cstate -> cstate -> Prop :=
(** [with self._lock] *)
| c_acquire s i o rest : at_pc (procs s i) = Outside -> todo (procs s i) = o :: rest -> lock s = None ->
    cstep s {| procs := set_proc (procs s) i {| at_pc := Entered o; todo := rest; results := results (procs s i) |};
               lock := Some i; size := size s; delivered := delivered s; hist := hist s |}
(** inc (88-91) *)
| c_inc s i : at_pc (procs s i) = Entered OInc -> cstep s (with_pc (with_sizes s (S (size s)) (delivered s)) i (Changed OInc))
| c_inc_size s i : at_pc (procs s i) = Changed OInc -> cstep s (with_pc s i (Leaving OInc (RInt (qsize s))))
(** dec (93-96) *)
| c_dec s i k : at_pc (procs s i) = Entered ODec -> delivered s = S k ->
    cstep s (with_pc (with_sizes s (pred (size s)) k) i (Changed ODec))
| c_dec_size s i : at_pc (procs s i) = Changed ODec -> cstep s (with_pc s i (Leaving ODec (RInt (qsize s))))
(** compare_and_dec (98-102) *)
| c_cmp_size s i v : at_pc (procs s i) = Entered (OCmp v) -> cstep s (with_pc s i (Sized (OCmp v) (qsize s)))
| c_cmp s i v n k : at_pc (procs s i) = Sized (OCmp v) n -> delivered s = S k ->
    cstep s (with_pc (with_sizes s (pred (size s)) k) i (Leaving (OCmp v) (RBool (Z.eqb n v))))
(** get_and_dec (104-108) *)
| c_get_size s i : at_pc (procs s i) = Entered OGet -> cstep s (with_pc s i (Sized OGet (qsize s)))
| c_get s i n k : at_pc (procs s i) = Sized OGet n -> delivered s = S k ->
    cstep s (with_pc (with_sizes s (pred (size s)) k) i (Leaving OGet (RInt n)))
(** value (110-113) *)
| c_val s i : at_pc (procs s i) = Entered OVal -> cstep s (with_pc s i (Leaving OVal (RInt (qsize s))))
(** the lock is given back, the result returned *)
| c_release s i o r : at_pc (procs s i) = Leaving o r ->
    cstep s {| procs := set_proc (procs s) i {| at_pc := Outside; todo := todo (procs s i); results := results (procs s i) ++ [(o, r)] |};
               lock := None; size := size s; delivered := delivered s; hist := hist s ++ [(i, (o, r))] |}
(** the thread of the queue delivers an entry *)
| c_feed s : delivered s < size s -> cstep s (with_sizes s (size s) (S (delivered s))).

(** __init__ (82-86) with [v], and the programs of the processes *)
Definition cinit (v : nat) (prog : nat -> list op) : cstate :=
  {| procs := fun i => {| at_pc := Outside; todo := prog i; results := [] |};
     lock := None; size := v; delivered := 0; hist := [] |}.

Inductive creach (v : nat) (prog : nat -> list op) : cstate -> Prop :=
| creach_init : creach v prog (cinit v prog)
| creach_step s s' : creach v prog s -> cstep s s' -> creach v prog s'.

(** A process that is in a call is killed (for example by the system, for want of memory): the lock is not given back. *)
Definition kill (s : cstate) (i : nat) : cstate :=
  {| procs := set_proc (procs s) i {| at_pc := Outside; todo := []; results := results (procs s i) |};
     lock := lock s; size := size s; delivered := delivered s; hist := hist s |}.

(** util.py 34-78: NonAtomicCounter, used with one process where qsize is not available (vocab.py 353-358): the value
    after the call and the result *)
Definition non_atomic (o : op) (val : Z) : Z * rv :=
  match o with
  | OInc => ((val + 1)%Z, RInt (val + 1))
  | ODec => ((val - 1)%Z, RInt (val - 1))
  | OCmp v => ((val - 1)%Z, RBool (Z.eqb val v))
  | OGet => ((val - 1)%Z, RInt val)
  | OVal => (val, RInt val)
  end.
