(** The learning command end to end: codeprep/pipeline/bpelearner.py with the files of
    codeprep/bpepkg/merge.py, cache.py and codeprep/pipeline/vocab.py, and what is left behind when the
    process is killed while it saves its results. *)
From Verif Require Import M_Base M_Literal L_Base M_Merge M_BpeEncode M_Learn M_Vocab M_Registry.

(** ** The directory of a merge list

    One directory [<bpe_path>/<number of merges>] (bperegistry.py 20-26 names the files); None is a file
    that does not exist. *)
Record bdir := { f_res : option str; f_cache : option str; f_merges : option str; f_reass : option str }.

(** what save_results writes *)
Record contents := { c_res : str; c_cache : str; c_merges : str; c_reass : str }.

Definition complete (c : contents) : bdir :=
  {| f_res := Some (c_res c); f_cache := Some (c_cache c); f_merges := Some (c_merges c); f_reass := Some (c_reass c) |}.

(** The directories under bpe_path with the number in their names.  Simplified: directories whose names are
    not the decimal form of a number are not looked at by [run]. *)
Definition bstate := dict nat bdir.

(** [open(f, 'r')] *)
Definition open_file (f : option str) : res str := match f with Some s => Ok s | None => Err FileNotFoundError end.

(** the corpus: the vocabulary and the non-bpe words which the earlier stages have made
    (get_base_vocab 22-26, load_nonbpe_vocab 29-34) *)
Record corpus := { all_vocab : dict str Z; nonbpe : list str }.

(** a dict comprehension *)
Definition dict_of {K V} `{Eqb K} (l : list (K * V)) : dict K V := fold_left (fun d kv => dset d (fst kv) (snd kv)) l [].

(** a dictionary with words split by spaces as keys; M_Learn has the words as lists of symbols *)
Definition to_symbols (d : dict str Z) : split_vocab := map (fun kv => (split_on 32 (fst kv), snd kv)) d.
Definition to_strings (v : split_vocab) : dict str Z := map (fun kv => (join (lit " ") (fst kv), snd kv)) v.

(** prepare_vocabs (48-59), starting from scratch *)
Definition prepare_scratch (c : corpus) : split_vocab * dict str Z :=
  let (base, other) := separate_vocabs (all_vocab c) (nonbpe c) in
  (scratch_vocab base, dict_of (map (fun kv => (escape (fst kv) true, snd kv)) other)).

(** prepare_vocabs (48-59), with an earlier result *)
Definition prepare_resume (c : corpus) (d : bdir) : res (split_vocab * dict str Z) :=
  s <- open_file (f_reass d) ;;
  loaded <- load_vocab_dict s ;;
  let (base, other) := separate_vocabs loaded (map (fun k => escape k true) (nonbpe c)) in
  Ok (to_symbols base, other).

(** save_results (71-84) *)
Definition results (v : split_vocab) (merges : merge_list) : contents :=
  {| c_res := dump_vocab_dict true (sort_desc (create_resulting_vocab v));
     c_cache := dump_bpe_cache (create_bpe_cache v);
     c_merges := dump_merges merges;
     c_reass := dump_vocab_dict true (to_strings v) |}.

Section Run.
  (** int(); see M_Registry *)
  Variable py_int : str -> option Z.

  (** get_dir_with_most_merges (62-68); [not max_merges] is true for None and 0 *)
  Definition most_merges (st : bstate) (n : nat) : option nat :=
    match get_max_merges py_int (map (fun k => dec (N.of_nat k)) (dkeys st)) (Z.of_nat n) with
    | Some m => if Z.eqb m 0 then None else Some (Z.to_nat m)
    | None => None
    end.

  (** run (87-115) without its last statement: None if the merges are learned already, otherwise the name of
      the new directory and the files to be saved there *)
  Definition learn (c : corpus) (st : bstate) (n : nat) : res (option (nat * contents)) :=
    start <- match most_merges st n with
             | Some k =>
                 match dget st k with
                 | Some d =>
                     s <- open_file (f_merges d) ;;
                     done <- read_merges s None ;;
                     vo <- prepare_resume c d ;;
                     Ok (done, vo)
                 | None => Err FileNotFoundError
                 end
             | None => Ok (ml_empty, prepare_scratch c)
             end ;;
    let (done, vo) := (start : merge_list * (split_vocab * dict str Z)) in
    let (v, other) := vo in
    learned <- do_merges v (n - length done) ;;
    let (v', new) := learned in
    let v2 := fold_left (fun d kv => dset d (split_on 32 (fst kv)) (snd kv)) other v' in
    merges <- ml_add done new ;;
    let k := length merges in
    Ok (if dmem st k then None else Some (k, results v2 merges)).

  (** the state after a run that is not interrupted; an exception leaves everything as it was *)
  Definition run (c : corpus) (st : bstate) (n : nat) : bstate :=
    match learn c st n with
    | Ok (Some (k, files)) => dset st k (complete files)
    | _ => st
    end.
End Run.

(** ** Interruption

    save_results (71-84) creates the directory and then writes the four files one after the other.  [stopped c d]:
    the process was killed after the directory had been created and the directory was then [d]; a file
    being written holds any beginning of its contents (what had been flushed). *)
Inductive stopped (c : contents) : bdir -> Prop :=
| stop_dir : stopped c {| f_res := None; f_cache := None; f_merges := None; f_reass := None |}
| stop_res p q : c_res c = p ++ q ->
    stopped c {| f_res := Some p; f_cache := None; f_merges := None; f_reass := None |}
| stop_cache p q : c_cache c = p ++ q ->
    stopped c {| f_res := Some (c_res c); f_cache := Some p; f_merges := None; f_reass := None |}
| stop_merges p q : c_merges c = p ++ q ->
    stopped c {| f_res := Some (c_res c); f_cache := Some (c_cache c); f_merges := Some p; f_reass := None |}
| stop_reass p q : c_reass c = p ++ q -> q <> [] ->
    stopped c {| f_res := Some (c_res c); f_cache := Some (c_cache c); f_merges := Some (c_merges c); f_reass := Some p |}.
