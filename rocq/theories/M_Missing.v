(** * Files that disappear between the scan and the parsing, or cannot be read

    preprocess_and_write of codeprep/pipeline/parse_projects.py (22-45) for a file of the list that cannot be found any more (35-40), and
    what comes after it: parse_projects.run (54-73), run of codeprep/pipeline/to_repr.py (131-174) with preprocess_and_write (60-81), and
    the choice of stages (codeprep/pipeline/stages.py 19-36).

    The list of files is given and the same for all runs (M_FileList, C83); the name of the dataset stays the same (C53_root_refuted: it does if a file is
    removed from the top directory); nobody else touches the results, so that a marked stage stays up to date; names of files have UTF-8 extensions
    (M_Files).  Each file is read at some time during the run: [src] is what is found then.  Other errors than FileNotFoundError, such as
    PermissionError, are not caught (38): they end the pool and the run. *)
From Verif Require Import M_Base.

Inductive outcome := Ended | Failed | Killed.

(** reading a file: its content, FileNotFoundError, or another error (fileutils.py 36-48) *)
Inductive reading (A : Type) := Found (b : A) | Gone | Broken.
Arguments Found {A}. Arguments Gone {A}. Arguments Broken {A}.

Section Missing.
  Variable content : Type.                            (** what a file holds *)
  Variable tokens : Type.
  Variable files : list nat.                          (** the saved list *)
  Variable parse : nat -> content -> tokens.
  Variable to_repr : tokens -> str.

  Record results := {
    r_parsed : nat -> option tokens;  r_pmark : bool;   (** parsed files, and whether parsing is marked as finished *)
    r_out : nat -> option str;  r_omark : bool          (** the same for preprocessed files *)
  }.
  Definition put {A} (m : nat -> option A) (f : nat) (x : A) : nat -> option A := fun g => if Nat.eqb g f then Some x else m g.

  (** one file: if the source is not found, there is an error message and no parsed file (22-45); [None] in preprocessing:
      FileNotFoundError (to_repr.py 72) *)
  Definition parse_one (src : nat -> reading content) (p : nat -> option tokens) (f : nat) : nat -> option tokens :=
    match p f with
    | Some _ => p
    | None => match src f with Found b => put p f (parse f b) | _ => p end
    end.
  Definition prep_one (p : nat -> option tokens) (o : nat -> option str) (f : nat) : option (nat -> option str) :=
    match o f with
    | Some _ => Some o
    | None => match p f with Some t => Some (put o f (to_repr t)) | None => None end
    end.
  Definition parse_files (src : nat -> reading content) (fs : list nat) (p : nat -> option tokens) := fold_left (parse_one src) fs p.
  Fixpoint prep_files (p : nat -> option tokens) (fs : list nat) (o : nat -> option str) : option (nat -> option str) :=
    match fs with
    | [] => Some o
    | f :: fs' => match prep_one p o f with Some o' => prep_files p fs' o' | None => None end
    end.

  (** the results after run_parsing *)
  Definition after_parsing (src : nat -> reading content) (s : results) : results :=
    if r_pmark s then s
    else {| r_parsed := parse_files src files (r_parsed s); r_pmark := true; r_out := r_out s; r_omark := r_omark s |}.

  (** a file that is to be parsed cannot be read *)
  Definition stopped (src : nat -> reading content) (s : results) : Prop :=
    r_pmark s = false /\ exists f, In f files /\ r_parsed s f = None /\ src f = Broken.

  (** one run: which files were done before it was killed, or before the failure of one file ended the pool, is not determined *)
  Inductive run (src : nat -> reading content) (s : results) : outcome -> results -> Prop :=
  | run_parse_killed fs : r_pmark s = false -> incl fs files ->
      run src s Killed {| r_parsed := parse_files src fs (r_parsed s); r_pmark := false; r_out := r_out s; r_omark := r_omark s |}
  | run_parse_failed fs f : r_pmark s = false -> incl (f :: fs) files -> r_parsed s f = None -> src f = Broken ->
      run src s Failed {| r_parsed := parse_files src fs (r_parsed s); r_pmark := false; r_out := r_out s; r_omark := r_omark s |}
  | run_prep_killed fs o : ~ stopped src s -> let s1 := after_parsing src s in r_omark s1 = false -> incl fs files -> prep_files (r_parsed s1) fs (r_out s1) = Some o ->
      run src s Killed {| r_parsed := r_parsed s1; r_pmark := true; r_out := o; r_omark := false |}
  | run_failed fs f o : ~ stopped src s -> let s1 := after_parsing src s in r_omark s1 = false -> incl (f :: fs) files -> prep_files (r_parsed s1) fs (r_out s1) = Some o ->
      prep_one (r_parsed s1) o f = None ->
      run src s Failed {| r_parsed := r_parsed s1; r_pmark := true; r_out := o; r_omark := false |}
  | run_ended o : ~ stopped src s -> let s1 := after_parsing src s in r_omark s1 = false -> prep_files (r_parsed s1) files (r_out s1) = Some o ->
      run src s Ended {| r_parsed := r_parsed s1; r_pmark := true; r_out := o; r_omark := true |}
  | run_nothing : ~ stopped src s -> let s1 := after_parsing src s in r_omark s1 = true -> run src s Ended s1.

  (** runs one after the other, with what their reads find and how they end *)
  Inductive runs : results -> list ((nat -> reading content) * outcome) -> results -> Prop :=
  | runs_none s : runs s [] s
  | runs_more s src k s1 h s2 : run src s k s1 -> runs s1 h s2 -> runs s ((src, k) :: h) s2.
  Definition nothing : results := {| r_parsed := fun _ => None; r_pmark := false; r_out := fun _ => None; r_omark := false |}.
End Missing.
