(** codeprep/pipeline/stages.py, parse_projects.py, to_repr.py (run, preprocess_and_write), vocabloader.py
    (gather_non_bpe_vocab) and the markers of codeprep/pipeline/dataset.py, as operations on the file system
    that can be interrupted anywhere.

    The files of the dataset are numbered from 0 to n-1; by C51 their output and temporary files are all
    different.  Several processes work at the same time (multiprocessing.Pool), each on its own files; the
    operations of different files can be mixed in any order. *)
From Verif Require Import M_Base M_Literal.

(** an output file: not there, opened but not completely written, complete *)
Inductive ofile (A : Type) := Missing | Partial | Full (a : A).
Arguments Missing {A}.
Arguments Partial {A}.
Arguments Full {A} a.
Definition exists_file {A} (f : ofile A) : bool := match f with Missing => false | _ => true end.

(** what preprocess_and_write does for one file: not begun; temporary file opened; temporary file complete; part
    of the non-bpe vocabulary saved; done *)
Inductive worker := Idle | Opened | Written | Saved | Finished.

(** where the main process is: before the check of the parsed dataset; the parsed dataset is moved away but not
    its marker; parsing; the marker of the parsed dataset is opened; before the check of the preprocessed dataset;
    this one moved away; preprocessing; gathering the non-bpe vocabulary; the marker of the preprocessed dataset
    is opened; finished; ended by an exception *)
Inductive phase := Start | MovedParsed | Parsing | MarkParsed | PrepCheck | MovedPrep | Prepping | Gathering
  | MarkPrep | Done | Failed.

(** save_metadata (codeprep/preprocess/metadata.py 68-71) and _load_vocab_set (codeprep/pipeline/vocab.py 343-348) *)
Definition part_file (tokens : list str) : str := write_lines (map to_literal_str tokens).
Definition load_vocab_set (file : str) : res (list str) := mapM to_non_literal_str (file_lines file).

Section Pipeline.
  Variable content : Type.
  Variable n : nat.
  (** the text of a source file; None if it disappeared since the dataset was scanned *)
  Variable src : nat -> option content.
  (** convert_text and pickling (parse_projects.py 41-43); to_repr and to_literal_str (to_repr.py 73-76) *)
  Variable parse repr : content -> content.
  (** the tokens saved by save_metadata (metadata.py 68-71) for a parsed file *)
  Variable nonprocessable : content -> list str.
  (** placeholders.values() *)
  Variable placeholder_tokens : list str.
  (** prep_config.is_base_bpe_config() *)
  Variable base_bpe : bool.

  (** A SubDataset directory: finished files, temporary files, the content of the lastmodif file (set_path_ready,
      dataset.py 295-298; Some None is an empty file, that has been opened but not written), the time stamp that get_timestamp computes for the directory.  get_timestamp looks at
      some of the entries only (C53), so that after writing it can be any second until now. *)
  Record stage := {
    dest : nat -> ofile content;
    temp : nat -> ofile content;
    mark : option (option N);
    stamp : N
  }.

  Record state := {
    clock : N;                       (** the current second *)
    ph : phase;
    parsed : stage;
    prep : stage;
    wk : nat -> worker;
    parts : nat -> list str;         (** files in nonbpe_vocab_part, by output file (for their names see M_Parts) *)
    nonbpe : ofile (list str);       (** nonbpe_vocab *)
    collect : bool                   (** path_to_part_metadata is not None (to_repr.py 142-147) *)
  }.

  Definition upd {A} (f : nat -> A) (i : nat) (v : A) : nat -> A := fun j => if Nat.eqb j i then v else f j.
  Definition all_idle : nat -> worker := fun _ => Idle.
  Definition nothing : nat -> ofile content := fun _ => Missing.

  Definition set_ph s p := {| clock := clock s; ph := p; parsed := parsed s; prep := prep s; wk := wk s;
    parts := parts s; nonbpe := nonbpe s; collect := collect s |}.
  Definition set_parsed s d := {| clock := clock s; ph := ph s; parsed := d; prep := prep s; wk := wk s;
    parts := parts s; nonbpe := nonbpe s; collect := collect s |}.
  Definition set_prep s d := {| clock := clock s; ph := ph s; parsed := parsed s; prep := d; wk := wk s;
    parts := parts s; nonbpe := nonbpe s; collect := collect s |}.
  Definition set_wk s w := {| clock := clock s; ph := ph s; parsed := parsed s; prep := prep s; wk := w;
    parts := parts s; nonbpe := nonbpe s; collect := collect s |}.
  Definition set_parts s p := {| clock := clock s; ph := ph s; parsed := parsed s; prep := prep s; wk := wk s;
    parts := p; nonbpe := nonbpe s; collect := collect s |}.
  Definition set_nonbpe s v := {| clock := clock s; ph := ph s; parsed := parsed s; prep := prep s; wk := wk s;
    parts := parts s; nonbpe := v; collect := collect s |}.
  Definition set_collect s b := {| clock := clock s; ph := ph s; parsed := parsed s; prep := prep s; wk := wk s;
    parts := parts s; nonbpe := nonbpe s; collect := b |}.
  Definition set_clock s t := {| clock := t; ph := ph s; parsed := parsed s; prep := prep s; wk := wk s;
    parts := parts s; nonbpe := nonbpe s; collect := collect s |}.

  Definition set_dest d i v t := {| dest := upd (dest d) i v; temp := upd (temp d) i Missing; mark := mark d; stamp := t |}.
  Definition set_temp d i v t := {| dest := dest d; temp := upd (temp d) i v; mark := mark d; stamp := t |}.
  Definition set_mark d m := {| dest := dest d; temp := temp d; mark := m; stamp := stamp d |}.
  (** the directory is moved away, the marker stays (archive_path, dataset.py 318-324) *)
  Definition moved d t := {| dest := nothing; temp := nothing; mark := mark d; stamp := t |}.

  (** is_path_ready and is_path_outdated (301-315); Dataset.create made the directory (138-142) *)
  Definition is_ready (d : stage) : bool := match mark d with Some _ => true | None => false end.
  Definition outdated (d : stage) : bool :=
    match mark d with Some (Some m) => negb (N.eqb m (stamp d)) | Some None => true | None => false end.

  (** One operation at second [t] of a run *)
  Inductive step_at (t : N) (s : state) : state -> Prop :=
  (** run_parsing (stages.py 19-27) *)
  | parsed_not_ready : ph s = Start -> is_ready (parsed s) = false ->
      step_at t s (set_wk (set_ph s Parsing) all_idle)
  | parsed_outdated : ph s = Start -> is_ready (parsed s) = true -> outdated (parsed s) = true ->
      step_at t s (set_parsed (set_ph s MovedParsed) (moved (parsed s) t))
  | parsed_marker_moved : ph s = MovedParsed ->
      step_at t s (set_parsed (set_wk (set_ph s Parsing) all_idle) (set_mark (parsed s) None))
  | parsed_up_to_date : ph s = Start -> is_ready (parsed s) = true -> outdated (parsed s) = false ->
      step_at t s (set_ph s PrepCheck)
  (** preprocess_and_write of parse_projects.py (22-45) *)
  | parse_skip i : ph s = Parsing -> i < n -> wk s i = Idle -> exists_file (dest (parsed s) i) = true ->
      step_at t s (set_wk s (upd (wk s) i Finished))
  | parse_open i u : (u <= t)%N -> ph s = Parsing -> i < n -> wk s i = Idle -> exists_file (dest (parsed s) i) = false ->
      step_at t s (set_wk (set_parsed s (set_temp (parsed s) i Partial u)) (upd (wk s) i Opened))
  | parse_write i c u : (u <= t)%N -> ph s = Parsing -> i < n -> wk s i = Opened -> src i = Some c ->
      step_at t s (set_wk (set_parsed s (set_temp (parsed s) i (Full (parse c)) u)) (upd (wk s) i Written))
  | parse_no_source i : ph s = Parsing -> i < n -> wk s i = Opened -> src i = None ->
      step_at t s (set_wk s (upd (wk s) i Finished))
  | parse_rename i u : (u <= t)%N -> ph s = Parsing -> i < n -> wk s i = Written ->
      step_at t s (set_wk (set_parsed s (set_dest (parsed s) i (temp (parsed s) i) u)) (upd (wk s) i Finished))
  (** set_ready (parse_projects.py 73-74), caching not suppressed: the marker is opened and written *)
  | parse_end : ph s = Parsing -> (forall i, i < n -> wk s i = Finished) ->
      step_at t s (set_parsed (set_ph s MarkParsed) (set_mark (parsed s) (Some None)))
  | parse_marked : ph s = MarkParsed ->
      step_at t s (set_parsed (set_ph s PrepCheck) (set_mark (parsed s) (Some (Some (stamp (parsed s))))))
  (** caching suppressed (parse_projects.py 73): no marker.  Each run of a history may have suppress_caching or not *)
  | parse_uncached : ph s = Parsing -> (forall i, i < n -> wk s i = Finished) ->
      step_at t s (set_ph s PrepCheck)
  (** run_until_preprocessing (stages.py 30-39) and the beginning of run (to_repr.py 131-147) *)
  | prep_not_ready : ph s = PrepCheck -> is_ready (prep s) = false ->
      step_at t s (set_collect (set_wk (set_ph s Prepping) all_idle) (base_bpe && negb (exists_file (nonbpe s))))
  | prep_outdated : ph s = PrepCheck -> is_ready (prep s) = true -> outdated (prep s) = true ->
      step_at t s (set_prep (set_ph s MovedPrep) (moved (prep s) t))
  | prep_marker_moved : ph s = MovedPrep ->
      step_at t s (set_prep (set_collect (set_wk (set_ph s Prepping) all_idle) (base_bpe && negb (exists_file (nonbpe s))))
                     (set_mark (prep s) None))
  | prep_up_to_date : ph s = PrepCheck -> is_ready (prep s) = true -> outdated (prep s) = false ->
      step_at t s (set_ph s Done)
  (** preprocess_and_write of to_repr.py (60-81); an unreadable parsed file is an exception *)
  | prep_skip i : ph s = Prepping -> i < n -> wk s i = Idle -> exists_file (dest (prep s) i) = true ->
      step_at t s (set_wk s (upd (wk s) i Finished))
  | prep_open i c u : (u <= t)%N -> ph s = Prepping -> i < n -> wk s i = Idle -> exists_file (dest (prep s) i) = false ->
      dest (parsed s) i = Full c ->
      step_at t s (set_wk (set_prep s (set_temp (prep s) i Partial u)) (upd (wk s) i Opened))
  | prep_unreadable i : ph s = Prepping -> i < n -> wk s i = Idle -> exists_file (dest (prep s) i) = false ->
      (forall c, dest (parsed s) i <> Full c) ->
      step_at t s (set_ph s Failed)
  | prep_write i c u : (u <= t)%N -> ph s = Prepping -> i < n -> wk s i = Opened -> dest (parsed s) i = Full c ->
      step_at t s (set_wk (set_prep s (set_temp (prep s) i (Full (repr c)) u)) (upd (wk s) i Written))
  | prep_save i c : ph s = Prepping -> i < n -> wk s i = Written -> dest (parsed s) i = Full c ->
      step_at t s (set_wk (if collect s then set_parts s (upd (parts s) i (part_file (nonprocessable c) :: parts s i)) else s)
                     (upd (wk s) i Saved))
  | prep_rename i u : (u <= t)%N -> ph s = Prepping -> i < n -> wk s i = Saved ->
      step_at t s (set_wk (set_prep s (set_dest (prep s) i (temp (prep s) i) u)) (upd (wk s) i Finished))
  (** the end of run (to_repr.py 172-175) and gather_non_bpe_vocab (vocabloader.py 42-55) *)
  | prep_end : ph s = Prepping -> (forall i, i < n -> wk s i = Finished) -> collect s = false ->
      step_at t s (set_prep (set_ph s MarkPrep) (set_mark (prep s) (Some None)))
  | prep_gather ls : ph s = Prepping -> (forall i, i < n -> wk s i = Finished) -> collect s = true ->
      mapM load_vocab_set (flat_map (parts s) (seq 0 n)) = Ok ls ->
      step_at t s (set_nonbpe (set_ph s Gathering) Partial)
  | prep_gather_error e : ph s = Prepping -> (forall i, i < n -> wk s i = Finished) -> collect s = true ->
      mapM load_vocab_set (flat_map (parts s) (seq 0 n)) = Err e ->
      step_at t s (set_ph s Failed)
  | gather_write ls : ph s = Gathering -> nonbpe s = Partial ->
      mapM load_vocab_set (flat_map (parts s) (seq 0 n)) = Ok ls ->
      step_at t s (set_nonbpe s (Full (List.concat ls ++ placeholder_tokens)))
  | gather_end v : ph s = Gathering -> nonbpe s = Full v ->
      step_at t s (set_prep (set_parts (set_ph s MarkPrep) (fun _ => [])) (set_mark (prep s) (Some None)))
  | prep_marked : ph s = MarkPrep ->
      step_at t s (set_prep (set_ph s Done) (set_mark (prep s) (Some (Some (stamp (prep s)))))).

  (** time does not go backwards *)
  Inductive step : state -> state -> Prop :=
  | step_intro s t s' : (clock s <= t)%N -> step_at t s s' -> step s (set_clock s' t).

  (** All processes are killed, or the run has ended, and the program is started again in a later second.
      Dataset.create makes directories that are not there, with a new time stamp.  A part of the non-bpe
      vocabulary that is being written is left in the directory as it is. *)
  Definition recreated (gone : bool) (d : stage) (t : N) : stage :=
    if gone then {| dest := dest d; temp := temp d; mark := mark d; stamp := t |} else d.
  Definition phase_eqb (a b : phase) : bool :=
    match a, b with MovedParsed, MovedParsed | MovedPrep, MovedPrep => true | _, _ => false end.
  Definition cut_off (s : state) (i : nat) (junk : list str) : Prop :=
    junk = [] \/
    ph s = Prepping /\ collect s = true /\ wk s i = Written /\
    exists c k, dest (parsed s) i = Full c /\ junk = [firstn k (part_file (nonprocessable c))].
  Inductive restart : state -> state -> Prop :=
  | restart_intro s t junk :
      (clock s < t)%N ->
      (forall i, cut_off s i (junk i)) ->
      restart s
        (set_clock (set_ph (set_parts (set_prep (set_parsed s
           (recreated (phase_eqb (ph s) MovedParsed) (parsed s) t))
           (recreated (phase_eqb (ph s) MovedPrep) (prep s) t))
           (fun i => junk i ++ parts s i)) Start) t).

  (** Between two runs somebody changes the files of a finished stage in such a way that its time stamp
      changes, or removes its marker and all files or, if they have not been changed before, some of the files (README.md: the cache
      can be removed). *)
  Definition fewer (d d' : stage) : Prop :=
    (forall i, (dest d' i = dest d i \/ dest d' i = Missing) /\ (temp d' i = temp d i \/ temp d' i = Missing)) /\
    mark d' = None /\ (outdated d = false \/ forall i, dest d' i = Missing).
  Inductive modified : state -> state -> Prop :=
  | removed_parsed s d t : ph s = Start -> fewer (parsed s) d ->
      (clock s <= t)%N -> (stamp d <= t)%N -> modified s (set_clock (set_parsed s d) t)
  | removed_prep s d t : ph s = Start -> fewer (prep s) d ->
      (clock s <= t)%N -> (stamp d <= t)%N -> modified s (set_clock (set_prep s d) t)
  | modified_parsed s m d t : ph s = Start -> mark (parsed s) = Some m -> mark d = Some m -> m <> Some (stamp d) ->
      (clock s <= t)%N -> (stamp d <= t)%N -> modified s (set_clock (set_parsed s d) t)
  | modified_prep s m d t : ph s = Start -> mark (prep s) = Some m -> mark d = Some m -> m <> Some (stamp d) ->
      (clock s <= t)%N -> (stamp d <= t)%N -> modified s (set_clock (set_prep s d) t).

  (** nothing has been done yet *)
  Definition fresh (t : N) : stage := {| dest := nothing; temp := nothing; mark := None; stamp := t |}.
  Definition initial (t : N) : state :=
    {| clock := t; ph := Start; parsed := fresh t; prep := fresh t; wk := all_idle; parts := fun _ => [];
       nonbpe := Missing; collect := false |}.

  (** runs with interruptions *)
  Inductive reach : state -> Prop :=
  | reach_initial t : reach (initial t)
  | reach_step s s' : reach s -> step s s' -> reach s'
  | reach_restart s s' : reach s -> restart s s' -> reach s'.
  (** ... and with changes of finished stages *)
  Inductive reach_mod : state -> Prop :=
  | reach_mod_initial t : reach_mod (initial t)
  | reach_mod_step s s' : reach_mod s -> step s s' -> reach_mod s'
  | reach_mod_restart s s' : reach_mod s -> restart s s' -> reach_mod s'
  | reach_mod_modified s s' : reach_mod s -> modified s s' -> reach_mod s'.
End Pipeline.

(** ** The vocabulary stages (codeprep/pipeline/stages.py 42-70).  [current] is the vocabulary of the preprocessed
    dataset at the time of the run; the files are vocab and vocabsize, the time stamp is that of the first.
    Nothing makes a marker, set_path_ready is only called for directories.  Interrupted calculations are the
    subject of M_Merger. *)
Section Vocab.
  Variable V : Type.
  Record vstate := { vfile : option V; vsize : bool; vstamp : N; vmark : option N }.
  Definition v_exists (v : vstate) : bool := match vfile v with Some _ => true | None => false end.
  Definition v_ready (v : vstate) : bool := v_exists v && match vmark v with Some _ => true | None => false end.
  Definition v_outdated (v : vstate) : bool := match vmark v with Some m => negb (N.eqb m (vstamp v)) | None => false end.
  (** calc_vocab (vocab.py 351-391) in the second [now]: nothing is done if both files exist (361-363).  The flag
      says whether the vocabulary was calculated *)
  Definition calc (now : N) (current : V) (v : vstate) : vstate * bool :=
    if v_exists v && vsize v then (v, false)
    else ({| vfile := Some current; vsize := true; vstamp := now; vmark := vmark v |}, true).
  (** archive_path (dataset.py 318-324) of the file vocab *)
  Definition v_archived (v : vstate) : vstate := {| vfile := None; vsize := vsize v; vstamp := vstamp v; vmark := None |}.
  (** run_until_base_bpe_vocab, after run_until_preprocessing (44-51) *)
  Definition run_base_bpe_vocab (now : N) (current : V) (v : vstate) : vstate * bool :=
    if negb (v_ready v) then calc now current v
    else if v_outdated v then calc now current (v_archived v)
    else (v, false).
  (** run_until_vocab (54-70); the second branch archives path_to_bpe_vocab_file, the name of which needs a
      bpe configuration that these datasets do not have (dataset.py 226-227, api/corpus.py 235-237) *)
  Definition run_vocab (now : N) (current : V) (v : vstate) : res (vstate * bool) :=
    if v_exists v then Ok (v, false)
    else if negb (v_ready v) then Ok (calc now current v)
    else if v_outdated v then Err AttributeError
    else Err AssertionError.
End Vocab.
