(** The names that a run of preprocessing gives to files and directories (codeprep/pipeline/dataset.py 128-151 and 173-324,
    codeprep/pipeline/parse_projects.py 22-45, codeprep/pipeline/to_repr.py 60-81 and 142-147, codeprep/pipeline/vocabloader.py 41-54), on a file
    system that does not take names of more than a number of bytes (255 on the usual ones).  The operations are those of M_Place,
    with the names of archives and of the parts of the vocabulary of special tokens, which are left open there. *)
From Verif Require Import M_Base L_Base M_PrepConfig M_Dataset M_Parts M_Place.

(** the paths an operation names *)
Definition paths_of (o : op) : list (list str) :=
  match o with MakeDirs p => [p] | WriteFile p _ => [p] | Rename p q => [p; q] | Remove p => [p] end.
Definition fits (limit : nat) (p : list str) : bool := forallb (fun n => length n <=? limit)%nat p.

(** an operation with a name that is too long is an OSError, here None: none of the calls of M_Place catches it (only a file
    that is not found is, parse_projects.py 36-40, and that is the source) *)
Definition perform_within (limit : nat) (t : N) (o : op) (fs : entry) : option entry :=
  if forallb (fits limit) (paths_of o) then Some (perform t o fs) else None.
Fixpoint perform_all_within (limit : nat) (os : list (N * op)) (fs : entry) : option entry :=
  match os with
  | [] => Some fs
  | to :: os' => match perform_within limit (fst to) (snd to) fs with Some fs' => perform_all_within limit os' fs' | None => None end
  end.

Section Named.
  Variable cwd : list str.
  Variables cache config : str.
  Variable r : run.
  Variable t : node.
  (** the most characters that time.time() is written with *)
  Variable digits : nat.

  Definition vocab_at : list str := abs_parts cwd (vocab_path (vocabs_dir config) r).
  (** f'{path_to_nonbpe_vocab_file}_part' (to_repr.py 143) *)
  Definition parts_folder : list str := vocab_at ++ [lit "nonbpe_vocab_part"].

  Inductive named_op : op -> Prop :=
  (** Dataset.create (dataset.py 138-151) *)
  | nm_create p : In p [parsed_at cache r; prep_at cache r; lists_dir cache; sizes_dir cache; path_join (bpes_dir config) (dataset_dir_name r)] ->
      named_op (MakeDirs (abs_parts cwd p))
  (** get_all_files and walk_and_save (dataset.py 261-276, dirutils.py 27-52) *)
  | nm_list_folder : named_op (MakeDirs (abs_parts cwd (list_folder cache r)))
  | nm_list f c : In f [lit "dirlist"; lit "filelist"] -> named_op (WriteFile (abs_parts cwd (path_join (list_folder cache r) f)) c)
  (** set_path_ready (dataset.py 295-298) *)
  | nm_ready p c : In p [list_folder cache r; parsed_at cache r; prep_at cache r] -> named_op (WriteFile (marker (abs_parts cwd p)) c)
  (** preprocess_and_write (parse_projects.py 22-45, to_repr.py 60-81) *)
  | nm_output_dir o : In o (parse_outputs cwd cache r t ++ prep_outputs cwd cache r t) -> named_op (MakeDirs (parent (abs_parts cwd o)))
  | nm_output o c : In o (parse_outputs cwd cache r t ++ prep_outputs cwd cache r t) -> named_op (WriteFile (abs_parts cwd (temp_name o)) c)
  | nm_output_done o : In o (parse_outputs cwd cache r t ++ prep_outputs cwd cache r t) ->
      named_op (Rename (abs_parts cwd (temp_name o)) (abs_parts cwd o))
  (** archive_path (dataset.py 318-324) *)
  | nm_archive_dir : named_op (MakeDirs (abs_parts cwd (preps_dir cache)))
  | nm_archive p s : In p [parsed_at cache r; prep_at cache r] ->
      named_op (Rename (abs_parts cwd p) (abs_parts cwd (preps_dir cache) ++ [name_of (abs_parts cwd p) ++ lit ".archived." ++ stamp_str s]))
  | nm_archive_marker p s : In p [parsed_at cache r; prep_at cache r] ->
      named_op (Rename (marker (abs_parts cwd p))
                  (abs_parts cwd (preps_dir cache) ++ [name_of (marker (abs_parts cwd p)) ++ lit ".archived." ++ stamp_str s]))
  (** the vocabulary of special tokens (to_repr.py 142-147 and 78-79, vocabloader.py 41-54) *)
  | nm_parts : is_base_bpe_config (r_config r) = true -> named_op (MakeDirs parts_folder)
  | nm_part s c : is_base_bpe_config (r_config r) = true -> In (sv_dest s) (prep_outputs cwd cache r t) -> length (sv_time s) <= digits ->
      named_op (WriteFile (parts_folder ++ [part_name s]) c)
  | nm_gathered c : is_base_bpe_config (r_config r) = true -> named_op (WriteFile (vocab_at ++ [lit "nonbpe_vocab"]) c)
  | nm_parts_gone : is_base_bpe_config (r_config r) = true -> named_op (Remove parts_folder)
  (** get_corpus_size (api/corpus.py 49-55) *)
  | nm_size c : named_op (WriteFile (abs_parts cwd (corpus_size_path (sizes_dir cache) (preps_dir cache) r)) c).
End Named.
