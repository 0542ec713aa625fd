(** codeprep/api/corpus.py: get_corpus_size (48-54) with _calc_corpus_size (56-69), called by any number of processes on the same
    corpus, any of which may be killed at any moment.

    The size file is absent or has a text.  Opening it for writing makes it empty; the few characters are written at once when the file is
    closed. *)
From Coq Require Import Permutation.
From Verif Require Import M_Base L_Base M_Vocab.

Inductive sp :=
| SStart                        (** before os.path.exists (49) *)
| SCalc                         (** the file is not there: before the files are counted (50) *)
| SOpen (n : nat)               (** before open for writing (51) *)
| SWrite (n : nat)              (** opened; the text is written when the file is closed (52) *)
| SRead                         (** before the file is read (53-54) *)
| SDone (r : res Z)             (** returned, or raised *)
| SKilled.

Record sstate := { s_file : option str; s_procs : list sp }.

Section SizeFile.
  (** the contents of the preprocessed files *)
  Variable files : list str.

  (** The pool delivers the numbers of the files in any order (66) *)
  Inductive sstep : option str -> sp -> option str -> sp -> Prop :=
  | size_exists s : sstep (Some s) SStart (Some s) SRead
  | size_missing : sstep None SStart None SCalc
  | size_calc f fs : Permutation fs files -> sstep f SCalc f (SOpen (calc_corpus_size fs))
  | size_open f n : sstep f (SOpen n) (Some []) (SWrite n)
  | size_write f n : sstep f (SWrite n) (Some (dec (N.of_nat n))) SRead
  | size_read s : sstep (Some s) SRead (Some s) (SDone (parse_int s))
  | size_gone : sstep None SRead None (SDone (Err FileNotFoundError)).

  Inductive sys_size : sstate -> sstate -> Prop :=
  | ss_step f f' l1 p p' l2 : sstep f p f' p' ->
      sys_size {| s_file := f; s_procs := l1 ++ p :: l2 |} {| s_file := f'; s_procs := l1 ++ p' :: l2 |}
  (** a new call *)
  | ss_start f l : sys_size {| s_file := f; s_procs := l |} {| s_file := f; s_procs := l ++ [SStart] |}
  | ss_kill f l1 p l2 : sys_size {| s_file := f; s_procs := l1 ++ p :: l2 |} {| s_file := f; s_procs := l1 ++ SKilled :: l2 |}.

  Inductive size_reach : sstate -> Prop :=
  | sr_init : size_reach {| s_file := None; s_procs := [] |}
  | sr_next a b : size_reach a -> sys_size a b -> size_reach b.
End SizeFile.
