(** * Learning bpe codes and using them: the learn-bpe command (codeprep/cli/impl.py 39-63), the registry of learned codes
    (codeprep/pipeline/bperegistry.py, codeprep/pipeline/dataset.py 127-153, 215-252) and the files that are read when codes are
    used by their id (vocabloader.py 18-25, to_repr.py 84-115 in M_Api)

    M_BpeRun models what happens inside one directory of codes; here are all of them, with their ids. *)
From Verif Require Import M_Base L_Base M_Literal M_Merge M_BpeEncode M_Learn M_Vocab M_PrepConfig M_Registry M_Pipeline M_BpeRun M_Api.

(** one directory under USER_BPE_DIR: the content of its id file and the lists of merges *)
Record rdir := { r_id : option str; r_lists : bstate }.

(** USER_BPE_DIR by name; USER_VOCAB_DIR by name, with the vocabulary (as read from its file, C26) and the file of
    the non-bpe words *)
Record world := { w_bpe : dict str rdir; w_vocab : dict str (dict str Z * str) }.
Definition empty_world : world := {| w_bpe := []; w_vocab := [] |}.

(** A learn-bpe command: get_dataset_dir_name (dataset.py 173-178) and the basename of the dataset, the bpe configuration
    made from the options, --id, <n-merges> *)
Record learn_cmd := {
  k_dir : str; k_base : str; k_conf : bpe_config; k_id : option str; k_n : nat
}.

(** str() of to_prep_config (bpe_config.py 50-58) *)
Definition base_config (c : bpe_config) : str :=
  (if eqb (bc_unicode c) (lit "no") then lit "U" else lit "u") ++ lit "0EFsu".
(** base_bpe_vocab_path (dataset.py 226-227), the last component *)
Definition vocab_dir_name (dataset_dir : str) (c : bpe_config) : str := dataset_dir ++ lit "_-_" ++ base_config c.

(** check_if_bpe_config_supported (bpelearner.py 37-45) *)
Definition supported (c : bpe_config) : bool :=
  negb (eqb (bc_unicode c) (lit "bytes")) && negb (bc_word_end c) && negb (eqb (bc_case c) (lit "prefix")).

Section Learned.
  Variable py_int : str -> option Z.
  Variable maxsize : Z.
  Variable strip : str -> str.
  Variable number_of : str -> str -> option str.
  (** what the stages before learning (stages.run_until_base_bpe_vocab) write for a dataset and a configuration *)
  Variable source : str -> str -> dict str Z * str.

  Definition subdirs (r : rdir) : list str := map (fun k => dec (N.of_nat k)) (dkeys (r_lists r)).
  Definition listing (w : world) : list bpe_dir := map (fun r => (r_id r, subdirs r)) (dvals (w_bpe w)).

  Definition set_dir (w : world) (name : str) (r : rdir) : world :=
    {| w_bpe := dset (w_bpe w) name r; w_vocab := w_vocab w |}.

  (** Dataset.create (127-153) makes the directory of codes, for any command *)
  Definition touch (w : world) (name : str) : world :=
    if dmem (w_bpe w) name then w else set_dir w name {| r_id := None; r_lists := [] |}.

  (** handle_learnbpe (impl.py 39-63) with bpelearner.run (87-115).  BpeConfigNotSupported is ValueError here *)
  Definition learn_bpe (w : world) (k : learn_cmd) : res unit * world :=
    let name := bpe_dir_name (k_dir k) (k_conf k) in
    let w1 := touch w name in
    match dget (w_bpe w1) name with
    | None => (Err FileNotFoundError, w1)                           (* does not occur *)
    | Some r =>
        match match codes_id strip (r_id r, subdirs r) with
              | Some (_ :: _) => Ok (r_id r)
              | _ => i <- create_new_id_from py_int maxsize strip number_of (k_base k) (to_suffix (k_conf k)) (listing w1) (k_id k) ;;
                     Ok (Some i)
              end with
        | Err e => (Err e, w1)
        | Ok id =>
            let w2 := set_dir w1 name {| r_id := id; r_lists := r_lists r |} in
            if negb (supported (k_conf k)) then (Err ValueError, w2)
            else
              let vname := vocab_dir_name (k_dir k) (k_conf k) in
              (* the vocabulary is only made if there are no merges to start from; it is not made again *)
              let w3 := match most_merges py_int (r_lists r) (k_n k) with
                        | Some _ => w2
                        | None => if dmem (w_vocab w2) vname then w2
                                  else {| w_bpe := w_bpe w2;
                                          w_vocab := dset (w_vocab w2) vname (source (k_dir k) (base_config (k_conf k))) |}
                        end in
              match match dget (w_vocab w3) vname with
                    | None => Err FileNotFoundError
                    | Some (vocab, file) =>
                        nb <- load_vocab_set file ;;                (* load_nonbpe_vocab (bpelearner.py 29-34) does the same *)
                        learn py_int {| all_vocab := vocab; nonbpe := nb |} (r_lists r) (k_n k)
                    end with
              | Err e => (Err e, w3)
              | Ok None => (Ok tt, w3)
              | Ok (Some (m, files)) =>
                  (Ok tt, set_dir w3 name {| r_id := id; r_lists := dset (r_lists r) m (complete files) |})
              end
        end
    end.

  (** the same, killed while merges are learned: the id has been written (impl.py 57-58), no merges are saved *)
  Definition learn_killed (w : world) (k : learn_cmd) : world :=
    let name := bpe_dir_name (k_dir k) (k_conf k) in
    let w1 := touch w name in
    match dget (w_bpe w1) name with
    | None => w1
    | Some r =>
        match match codes_id strip (r_id r, subdirs r) with
              | Some (_ :: _) => Ok (r_id r)
              | _ => i <- create_new_id_from py_int maxsize strip number_of (k_base k) (to_suffix (k_conf k)) (listing w1) (k_id k) ;;
                     Ok (Some i)
              end with
        | Err e => w1
        | Ok id => set_dir w1 name {| r_id := id; r_lists := r_lists r |}
        end
    end.

  (** ** Using codes by their id.  [names] is the order in which os.walk lists the directories *)
  Definition has_id (w : world) (id : str) (name : str) : bool :=
    match dget (w_bpe w) name with
    | Some r => match codes_id strip (r_id r, subdirs r) with
                | Some i => negb (eqb i []) && eqb i id
                | None => false
                end
    | None => false
    end.

  (** get_dataset_bpe_dir (165-176): the first one *)
  Definition dataset_bpe_dir (w : world) (names : list str) (id : str) : res (str * rdir) :=
    match find (has_id w id) names with
    | Some name => match dget (w_bpe w) name with Some r => Ok (name, r) | None => Err ValueError end
    | None => Err ValueError
    end.

  (** get_base_vocab_dir (153-162) *)
  Definition base_vocab_dir (w : world) (names : list str) (id : str) : res str :=
    nr <- dataset_bpe_dir w names id ;;
    let parts := bpe_dir_parts (fst nr) in
    c <- from_suffix (snd parts) ;;
    Ok (vocab_dir_name (fst parts) c).

  (** the disk M_Api reads from; [packaged] are the codes in the package *)
  Definition disk_of (packaged : disk) (w : world) (names : list str) : disk := {|
    dk_cache := dk_cache packaged;
    dk_merges := dk_merges packaged;
    dk_find := fun id n => nr <- dataset_bpe_dir w names id ;;
                           _ <- config_dir py_int maxsize (subdirs (snd nr)) (Z.of_N n) ;; Ok tt;
    dk_codes := fun id n =>
      match (nr <- dataset_bpe_dir w names id ;;
             m <- config_dir py_int maxsize (subdirs (snd nr)) (Z.of_N n) ;; Ok (snd nr, m)) with
      | Ok (r, m) => match dget (r_lists r) (Z.to_nat m) with Some d => f_merges d | None => None end
      | Err _ => None
      end;
    dk_nonbpe := fun id =>
      v <- base_vocab_dir w names id ;;
      match dget (w_vocab w) v with Some (_, file) => Ok file | None => Err FileNotFoundError end
  |}.

  (** load_bpe_merges (bperegistry.py 187-189) *)
  Definition load_bpe_merges (w : world) (names : list str) (id : str) (n : nat) : res merge_list :=
    nr <- dataset_bpe_dir w names id ;;
    m <- config_dir py_int maxsize (subdirs (snd nr)) (Z.of_nat n) ;;
    s <- open_file (match dget (r_lists (snd nr)) (Z.to_nat m) with Some d => f_merges d | None => None end) ;;
    read_merges s (Some n).

  (** ** The vocabularies of codes by their id (vocabloader.py) *)
  (** all (18-20) *)
  Definition vl_all (w : world) (names : list str) (id : str) : res (dict str Z) :=
    v <- base_vocab_dir w names id ;;
    match dget (w_vocab w) v with Some (vocab, _) => Ok vocab | None => Err FileNotFoundError end.

  (** nonbpe (23-25) *)
  Definition vl_nonbpe (w : world) (names : list str) (id : str) : res (list str) :=
    v <- base_vocab_dir w names id ;;
    match dget (w_vocab w) v with Some (_, file) => load_vocab_set file | None => Err FileNotFoundError end.

  (** base (28-34) *)
  Definition vl_base (w : world) (names : list str) (id : str) : res (dict str Z) :=
    vocab <- vl_all w names id ;;
    nb <- vl_nonbpe w names id ;;
    Ok (fold_left (fun d token => if dmem d token then ddel d token else d) nb vocab).

  (** get_bpe_dir (bperegistry.py 179-184) *)
  Definition vl_bpe_dir (w : world) (names : list str) (id : str) (n : nat) : res bdir :=
    nr <- dataset_bpe_dir w names id ;;
    match dget (r_lists (snd nr)) n with Some d => Ok d | None => Err ValueError end.

  (** bpe (37-39) *)
  Definition vl_bpe (w : world) (names : list str) (id : str) (n : nat) : res (dict str Z) :=
    d <- vl_bpe_dir w names id n ;;
    s <- open_file (f_res d) ;;
    load_vocab_dict s.
End Learned.
