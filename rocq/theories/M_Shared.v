(** * Commands with different options for the same dataset at the same time

    They share the parsed dataset and its marker; the preprocessed dataset of each command is its own (C41; commands with the same
    options: M_Together).  What is modelled: Dataset.create (codeprep/pipeline/dataset.py 138-139), run_parsing and run_until_preprocessing
    (codeprep/pipeline/stages.py 19-36), parse_projects.run with preprocess_and_write (codeprep/pipeline/parse_projects.py 22-73),
    to_repr.run with preprocess_and_write (codeprep/pipeline/to_repr.py 60-81, 131-174), set_path_ready, is_path_ready, is_path_outdated and
    archive_path (dataset.py 295-324).

    Simplified: a parsed file is written and renamed in one step (the temporary file: M_Together), a name that was archived is never
    used again (M_Archive), the workers of a command are one process, the list of files is given (M_FileList), caching is not suppressed. *)
From Verif Require Import M_Base.

Section Shared.
  Variable files : list nat.                        (** the files of the dataset *)
  Variable tokens : Type.
  Variable parse : nat -> tokens.                   (** the tokens of a file *)
  Variable to_repr : nat -> tokens -> str.          (** the representation with the options of a command *)

  Record parsed := {
    now : N;                                        (** the clock *)
    pdir : bool;                                    (** the directory of the parsed dataset exists *)
    pfile : nat -> option (N * tokens);             (** the parsed files with the time of their last modification *)
    pmark : option (option N)                       (** the marker; [Some None]: it exists but nothing is written yet *)
  }.
  Inductive pc :=
  | QStart                                          (** before dataset.parsed.ready() (21) *)
  | QReady                                          (** before dataset.parsed.is_outdated() (23) *)
  | QArchive                                        (** before the first os.rename of archive_path (323) *)
  | QArchive2                                       (** before the second one (324) *)
  | QParse (todo : list nat)                        (** before os.path.exists of the first of these files (29), or before opening the marker *)
  | QWrite (f : nat) (todo : list nat)              (** the file was not there *)
  | QMark                                           (** the marker is open; before get_timestamp (298) *)
  | QMarkAt (s : N)                                 (** before the time stamp is written *)
  | QPrep (todo : list nat)                         (** preprocessing, these files are left *)
  | QDone
  | QFailed                                         (** FileNotFoundError *)
  | QKilled.
  Record command := { opt : nat; at_ : pc; out : nat -> option str }.

  Definition moved (c : command) (p : pc) : command := {| opt := opt c; at_ := p; out := out c |}.
  Definition with_mark (d : parsed) (m : option (option N)) : parsed := {| now := now d; pdir := pdir d; pfile := pfile d; pmark := m |}.
  (** get_timestamp (dirutils.py 55-81): the latest modification of a file (a directory without files: 0) *)
  Definition stamp_of (d : parsed) : N := fold_right (fun f m => match pfile d f with Some (t, _) => N.max t m | None => m end) 0%N files.

  (** the next thing a command does *)
  Definition advance (d : parsed) (c : command) : parsed * command :=
    match at_ c with
    | QStart => (d, moved c (match pdir d, pmark d with true, Some _ => QReady | _, _ => QParse files end))
    | QReady => (d, moved c (match pdir d, pmark d with
                             | true, Some m => if match m with Some s => N.eqb s (stamp_of d) | None => false end then QPrep files else QArchive
                             | _, _ => QFailed
                             end))
    | QArchive => if pdir d then ({| now := now d; pdir := false; pfile := fun _ => None; pmark := pmark d |}, moved c QArchive2) else (d, moved c QFailed)
    | QArchive2 => match pmark d with Some _ => (with_mark d None, moved c (QParse files)) | None => (d, moved c QFailed) end
    | QParse (f :: r) => ({| now := now d; pdir := true; pfile := pfile d; pmark := pmark d |},
                          moved c (match pfile d f with Some _ => QParse r | None => QWrite f r end))
    | QWrite f r => if pdir d
                    then ({| now := now d; pdir := true; pfile := fun g => if Nat.eqb g f then Some (now d, parse f) else pfile d g; pmark := pmark d |},
                          moved c (QParse r))
                    else (d, moved c QFailed)
    | QParse [] => (with_mark d (Some None), moved c QMark)
    | QMark => (d, moved c (if pdir d then QMarkAt (stamp_of d) else QFailed))
    | QMarkAt s => (with_mark d (Some (Some s)), moved c (QPrep files))
    | QPrep (f :: r) => (d, match pfile d f with
                            | Some (_, x) => {| opt := opt c; at_ := QPrep r; out := fun g => if Nat.eqb g f then Some (to_repr (opt c) x) else out c g |}
                            | None => moved c QFailed
                            end)
    | QPrep [] => (d, moved c QDone)
    | QDone | QFailed | QKilled => (d, c)
    end.

  Record world := { w_parsed : parsed; w_commands : list command }.
  Inductive event := ETick | EStart (o : nat) | EStep (i : nat) | EKill (i : nat).
  Fixpoint update {A} (l : list A) (i : nat) (x : A) : list A :=
    match l, i with
    | [], _ => []
    | _ :: l', 0 => x :: l'
    | y :: l', S i' => y :: update l' i' x
    end.
  Definition over (p : pc) : bool := match p with QDone | QFailed | QKilled => true | _ => false end.
  (** the command has not got to preprocessing yet *)
  Definition parsing (p : pc) : bool := match p with QPrep _ | QDone | QFailed | QKilled => false | _ => true end.

  Definition happen (w : world) (e : event) : world :=
    let d := w_parsed w in
    match e with
    | ETick => {| w_parsed := {| now := N.succ (now d); pdir := pdir d; pfile := pfile d; pmark := pmark d |}; w_commands := w_commands w |}
    | EStart o => {| w_parsed := {| now := now d; pdir := true; pfile := pfile d; pmark := pmark d |};
                     w_commands := w_commands w ++ [{| opt := o; at_ := QStart; out := fun _ => None |}] |}
    | EStep i => match nth_error (w_commands w) i with
                 | Some c => let (d', c') := advance d c in {| w_parsed := d'; w_commands := update (w_commands w) i c' |}
                 | None => w
                 end
    | EKill i => match nth_error (w_commands w) i with
                 | Some c => if over (at_ c) then w else {| w_parsed := d; w_commands := update (w_commands w) i (moved c QKilled) |}
                 | None => w
                 end
    end.
  Definition happened (es : list event) (w : world) : world := fold_left happen es w.
  (** commands are started only when no other command is parsing *)
  Fixpoint patient (es : list event) (w : world) : bool :=
    match es with
    | [] => true
    | e :: es' => match e with EStart _ => forallb (fun c => negb (parsing (at_ c))) (w_commands w) | _ => true end && patient es' (happen w e)
    end.
End Shared.
