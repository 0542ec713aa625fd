(** * Where preprocessing writes (codeprep/pipeline/dataset.py, parse_projects.py, to_repr.py, vocab.py, api/corpus.py)

    The file system is one tree without links; a path is the list of its components.  Every operation of a run
    that changes the file system is listed here with the path it changes.  An operation that fails (a part of the
    path is not a directory, for example) changes nothing; makedirs, which may have made some of the directories
    then, is the exception. *)
From Verif Require Import M_Base L_Base M_PrepConfig M_Dataset.

Inductive entry :=
| EFile (mtime : N) (content : str)
| EDir (mtime : N) (es : dict str entry).

(** what is found at a path *)
Fixpoint look (p : list str) (e : entry) : option entry :=
  match p with
  | [] => Some e
  | n :: p' => match e with
               | EDir _ es => match dget es n with Some e' => look p' e' | None => None end
               | EFile _ _ => None
               end
  end.

(** the tree as M_Dataset sees it *)
Fixpoint shape (e : entry) : node :=
  match e with
  | EFile m _ => File m
  | EDir m es => Dir false m (map (fun ne => (fst ne, shape (snd ne))) es)
  end.

(** [f] is done to what is found at a path *)
Fixpoint edit (p : list str) (f : entry -> entry) (e : entry) : entry :=
  match p with
  | [] => f e
  | n :: p' => match e with
               | EDir m es => match dget es n with Some e' => EDir m (dset es n (edit p' f e')) | None => e end
               | EFile _ _ => e
               end
  end.

(** ** Operations in the second [t].  The time of a directory changes when an entry is added or removed *)
Inductive op :=
| MakeDirs (p : list str)
| WriteFile (p : list str) (content : str)
| Rename (p q : list str)
| Remove (p : list str).

Definition parent (p : list str) : list str := removelast p.
Definition name_of (p : list str) : str := last p [].

(** os.makedirs with exist_ok *)
Fixpoint new_dirs (t : N) (p : list str) : entry :=
  match p with [] => EDir t [] | n :: p' => EDir t [(n, new_dirs t p')] end.
Fixpoint make_dirs (t : N) (p : list str) (e : entry) : entry :=
  match p with
  | [] => e
  | n :: p' => match e with
               | EDir m es => match dget es n with
                              | Some e' => EDir m (dset es n (make_dirs t p' e'))
                              | None => EDir t (dset es n (new_dirs t p'))
                              end
               | EFile _ _ => e
               end
  end.

(** open for writing, and write *)
Definition put_file (t : N) (n : str) (c : str) (e : entry) : entry :=
  match e with
  | EDir m es => match dget es n with
                 | None => EDir t (dset es n (EFile t c))
                 | Some (EFile _ _) => EDir m (dset es n (EFile t c))
                 | Some (EDir _ _) => e
                 end
  | EFile _ _ => e
  end.

(** os.remove, shutil.rmtree *)
Definition take_out (t : N) (n : str) (e : entry) : entry :=
  match e with
  | EDir m es => if dmem es n then EDir t (ddel es n) else e
  | EFile _ _ => e
  end.

(** the second half of os.rename; something that is there is replaced (a directory that is not empty would be an
    error; no run renames to one, the names of archived directories have their time) *)
Definition put_in (t : N) (n : str) (x : entry) (e : entry) : entry :=
  match e with
  | EDir _ es => EDir t (dset es n x)
  | EFile _ _ => e
  end.

Definition is_nil {A} (l : list A) : bool := match l with [] => true | _ => false end.

(** nothing is written to or renamed at the root *)
Definition perform (t : N) (o : op) (fs : entry) : entry :=
  match o with
  | MakeDirs p => make_dirs t p fs
  | WriteFile p c => if is_nil p then fs else edit (parent p) (put_file t (name_of p) c) fs
  | Rename p q =>
      if is_nil p || is_nil q then fs
      else match look p fs, look (parent q) fs with
           | Some x, Some (EDir _ _) => edit (parent q) (put_in t (name_of q) x) (edit (parent p) (take_out t (name_of p)) fs)
           | _, _ => fs
           end
  | Remove p => if is_nil p then fs else edit (parent p) (take_out t (name_of p)) fs
  end.
Definition perform_all (os : list (N * op)) (fs : entry) : entry := fold_left (fun fs to => perform (fst to) (snd to) fs) os fs.

(** ** The operations of a run of preprocess_corpus (api/corpus.py 224-244)

    [cwd] is the working directory, [cache] and [config] are USER_CACHE_DIR and USER_CONFIG_DIR (config.py 34-35).
    [t] is the dataset when it is scanned. *)
Section Ops.
  Variable cwd : list str.
  Variables cache config : str.
  Variable r : run.
  Variable t : node.

  (** config.py 37-44 *)
  Definition lists_dir : str := path_join cache (lit "file_lists").
  Definition parsed_dir : str := path_join cache (lit "parsed_datasets").
  Definition preps_dir : str := path_join cache (lit "prep_datasets").
  Definition sizes_dir : str := path_join cache (lit "corpus_sizes").
  Definition bpes_dir : str := path_join config (lit "bpe").
  Definition vocabs_dir : str := path_join config (lit "vocab").

  Definition parts : str -> list str := abs_parts cwd.
  (** _get_last_modif_file_path_for_dir (dataset.py 290-292) *)
  Definition marker (p : list str) : list str := parent p ++ [lit "." ++ name_of p ++ lit ".lastmodif"].
  (** path_to_file_list_folder (253-255) *)
  Definition list_folder : str := path_join lists_dir (dataset_dir_name r).
  (** the directories of the two stages *)
  Definition parsed_at : str := parsed_path parsed_dir r.
  Definition prep_at : str := prep_path preps_dir r.

  Definition parse_outputs : list str :=
    map (get_new_file_name cwd {| sd_path := r_path r; sd_suffix := original_suffix |} {| sd_path := parsed_at; sd_suffix := parsed_suffix |})
      (file_iterator {| sd_path := r_path r; sd_suffix := original_suffix |} (negb (is_dir t)) (scan_files (r_path r) t (r_exts r))).
  Definition prep_outputs : list str :=
    map (get_new_file_name cwd {| sd_path := parsed_at; sd_suffix := parsed_suffix |} {| sd_path := prep_at; sd_suffix := prep_suffix |})
      (file_iterator {| sd_path := parsed_at; sd_suffix := parsed_suffix |} false (scan_files (r_path r) t (r_exts r))).

  (** the path is below a directory *)
  Definition below (d p : list str) : Prop := exists rest, p = d ++ rest.

  Inductive run_op : op -> Prop :=
  (** Dataset.create (dataset.py 138-151) *)
  | op_create p : In p [parsed_at; prep_at; lists_dir; sizes_dir; path_join bpes_dir (dataset_dir_name r)] -> run_op (MakeDirs (parts p))
  (** get_all_files and walk_and_save (dataset.py 261-276, dirutils.py 27-52) *)
  | op_list_folder : run_op (MakeDirs (parts list_folder))
  | op_list f c : In f [lit "dirlist"; lit "filelist"] -> run_op (WriteFile (parts (path_join list_folder f)) c)
  (** set_path_ready (dataset.py 295-298); the content of a file is any text, as it may be cut off *)
  | op_ready p c : In p [list_folder; parsed_at; prep_at] -> run_op (WriteFile (marker (parts p)) c)
  (** preprocess_and_write (parse_projects.py 22-45, to_repr.py 60-81): the directory of an absolute path has its components
      without the last *)
  | op_output_dir o : In o (parse_outputs ++ prep_outputs) -> run_op (MakeDirs (parent (parts o)))
  | op_output o c : In o (parse_outputs ++ prep_outputs) -> run_op (WriteFile (parts (temp_name o)) c)
  | op_output_done o : In o (parse_outputs ++ prep_outputs) -> run_op (Rename (parts (temp_name o)) (parts o))
  (** archive_path (dataset.py 318-324) *)
  | op_archive_dir : run_op (MakeDirs (parts preps_dir))
  | op_archive p s : In p [parsed_at; prep_at] -> no_char slash s ->
      run_op (Rename (parts p) (parts preps_dir ++ [name_of (parts p) ++ lit ".archived." ++ s]))
  | op_archive_marker p s : In p [parsed_at; prep_at] -> no_char slash s ->
      run_op (Rename (marker (parts p)) (parts preps_dir ++ [name_of (marker (parts p)) ++ lit ".archived." ++ s]))
  (** the vocabulary (stages.py 54-70, vocab.py 351-391) and the non-bpe vocabulary (to_repr.py 142-147, metadata.py 68-71,
      vocabloader.py 42-55): all in vocab_path *)
  | op_vocab_dirs p : below (parts (vocab_path vocabs_dir r)) p -> run_op (MakeDirs p)
  | op_vocab_write p c : below (parts (vocab_path vocabs_dir r)) p -> run_op (WriteFile p c)
  | op_vocab_rename p q : below (parts (vocab_path vocabs_dir r)) p -> below (parts (vocab_path vocabs_dir r)) q -> run_op (Rename p q)
  | op_vocab_remove p : below (parts (vocab_path vocabs_dir r)) p -> run_op (Remove p)
  (** get_corpus_size (api/corpus.py 49-55) *)
  | op_size c : run_op (WriteFile (parts (corpus_size_path sizes_dir preps_dir r)) c).
End Ops.
