(** Several commands that work on the same preprocessed dataset at the same time, or one after the other:
    preprocess_and_write of codeprep/pipeline/to_repr.py (60-81) for one file.

    All of them use the same temporary file (71).  A name leads to an i-node; an open file stays connected with its i-node
    when the name is changed or removed.  Opening for writing makes the file empty, or creates it (72); every process writes at its own
    position, byte by byte; bytes before the position that have not been written are zero.  What is written is the same
    for all processes: [text].  Saving parts of the non-bpe vocabulary (78-79, each into a file of its own) is left out. *)
From Verif Require Import M_Base.

Definition zero : N := 0%N.
Fixpoint write_at (k : nat) (b : N) (c : list N) : list N :=
  match k, c with
  | 0, [] => [b]
  | 0, _ :: t => b :: t
  | S k, [] => zero :: write_at k b []
  | S k, x :: t => x :: write_at k b t
  end.

Inductive cp :=
| CStart                        (** before os.path.exists (67) *)
| CPassed                       (** the file was not there; before open (72) *)
| CWriting (fd k : nat)         (** writing to i-node [fd], [k] bytes are written (76) *)
| CClosed                       (** before os.rename (81) *)
| CEnded (ok : bool)            (** ended; [false]: os.rename has raised FileNotFoundError *)
| CKilled.

Record cstate := {
  c_next : nat;                 (** i-nodes used so far are smaller *)
  c_data : nat -> list N;       (** contents of i-nodes *)
  c_temp : option nat;          (** i-node of the temporary file *)
  c_dest : option nat;          (** i-node of the output file *)
  c_procs : list cp
}.
Definition set_data (f : nat -> list N) (j : nat) (c : list N) : nat -> list N := fun i => if Nat.eqb i j then c else f i.

Section Together.
  Variable text : list N.

  Inductive cstep : cstate -> cstate -> Prop :=
  | c_skip nx d t j l1 l2 :
      cstep {| c_next := nx; c_data := d; c_temp := t; c_dest := Some j; c_procs := l1 ++ CStart :: l2 |}
            {| c_next := nx; c_data := d; c_temp := t; c_dest := Some j; c_procs := l1 ++ CEnded true :: l2 |}
  | c_pass nx d t l1 l2 :
      cstep {| c_next := nx; c_data := d; c_temp := t; c_dest := None; c_procs := l1 ++ CStart :: l2 |}
            {| c_next := nx; c_data := d; c_temp := t; c_dest := None; c_procs := l1 ++ CPassed :: l2 |}
  | c_create nx d e l1 l2 :
      cstep {| c_next := nx; c_data := d; c_temp := None; c_dest := e; c_procs := l1 ++ CPassed :: l2 |}
            {| c_next := S nx; c_data := set_data d nx []; c_temp := Some nx; c_dest := e; c_procs := l1 ++ CWriting nx 0 :: l2 |}
  | c_truncate nx d j e l1 l2 :
      cstep {| c_next := nx; c_data := d; c_temp := Some j; c_dest := e; c_procs := l1 ++ CPassed :: l2 |}
            {| c_next := nx; c_data := set_data d j []; c_temp := Some j; c_dest := e; c_procs := l1 ++ CWriting j 0 :: l2 |}
  | c_write nx d t e fd k b l1 l2 : nth_error text k = Some b ->
      cstep {| c_next := nx; c_data := d; c_temp := t; c_dest := e; c_procs := l1 ++ CWriting fd k :: l2 |}
            {| c_next := nx; c_data := set_data d fd (write_at k b (d fd)); c_temp := t; c_dest := e;
               c_procs := l1 ++ CWriting fd (S k) :: l2 |}
  | c_close nx d t e fd l1 l2 :
      cstep {| c_next := nx; c_data := d; c_temp := t; c_dest := e; c_procs := l1 ++ CWriting fd (length text) :: l2 |}
            {| c_next := nx; c_data := d; c_temp := t; c_dest := e; c_procs := l1 ++ CClosed :: l2 |}
  | c_rename nx d j e l1 l2 :
      cstep {| c_next := nx; c_data := d; c_temp := Some j; c_dest := e; c_procs := l1 ++ CClosed :: l2 |}
            {| c_next := nx; c_data := d; c_temp := None; c_dest := Some j; c_procs := l1 ++ CEnded true :: l2 |}
  | c_rename_fails nx d e l1 l2 :
      cstep {| c_next := nx; c_data := d; c_temp := None; c_dest := e; c_procs := l1 ++ CClosed :: l2 |}
            {| c_next := nx; c_data := d; c_temp := None; c_dest := e; c_procs := l1 ++ CEnded false :: l2 |}.

  (** a command comes to this file; a command is killed *)
  Definition c_started (s : cstate) : cstate :=
    {| c_next := c_next s; c_data := c_data s; c_temp := c_temp s; c_dest := c_dest s; c_procs := c_procs s ++ [CStart] |}.
  Inductive c_kill : cstate -> cstate -> Prop :=
  | c_kill_intro nx d t e l1 p l2 :
      c_kill {| c_next := nx; c_data := d; c_temp := t; c_dest := e; c_procs := l1 ++ p :: l2 |}
             {| c_next := nx; c_data := d; c_temp := t; c_dest := e; c_procs := l1 ++ CKilled :: l2 |}.
  Definition c_init : cstate := {| c_next := 0; c_data := fun _ => []; c_temp := None; c_dest := None; c_procs := [] |}.

  (** any number of commands at any time, none of them killed *)
  Inductive c_unkilled : cstate -> Prop :=
  | cu_init : c_unkilled c_init
  | cu_start s : c_unkilled s -> c_unkilled (c_started s)
  | cu_step s s' : c_unkilled s -> cstep s s' -> c_unkilled s'.
  (** ... and with kills *)
  Inductive c_reach : cstate -> Prop :=
  | cr_init : c_reach c_init
  | cr_start s : c_reach s -> c_reach (c_started s)
  | cr_step s s' : c_reach s -> cstep s s' -> c_reach s'
  | cr_kill s s' : c_reach s -> c_kill s s' -> c_reach s'.

  Definition c_over (p : cp) : Prop := match p with CEnded _ | CKilled => True | _ => False end.
  (** with kills, but a command starts only when all others have ended or were killed *)
  Inductive c_one_by_one : cstate -> Prop :=
  | co_init : c_one_by_one c_init
  | co_start s : c_one_by_one s -> (forall p, In p (c_procs s) -> c_over p) -> c_one_by_one (c_started s)
  | co_step s s' : c_one_by_one s -> cstep s s' -> c_one_by_one s'
  | co_kill s s' : c_one_by_one s -> c_kill s s' -> c_one_by_one s'.
End Together.
(** everything that can happen from a state on *)
Inductive c_later (text : list N) (s : cstate) : cstate -> Prop :=
| cl_here : c_later text s s
| cl_start s1 : c_later text s s1 -> c_later text s (c_started s1)
| cl_step s1 s2 : c_later text s s1 -> cstep text s1 s2 -> c_later text s s2
| cl_kill s1 s2 : c_later text s s1 -> c_kill s1 s2 -> c_later text s s2.
