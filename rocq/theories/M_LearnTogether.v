(** Several learn-bpe commands for the same dataset at the same time: run of codeprep/pipeline/bpelearner.py (87-115) step by step.

    The base vocabulary and the non-bpe vocabulary of the dataset are there already, and so is its id.  Each command looks for
    earlier results (92), reads the merges (96) and the split vocabulary (101), learns (105-108), looks whether the new
    directory exists (111), makes it (73) and writes four files into it (77-83).  A file that is being written holds any beginning
    of its text; it can be read then. *)
From Verif Require Import M_Base M_Literal L_Base M_Merge M_Learn M_Vocab M_Registry M_BpeRun.

Inductive tend :=
| Learned                       (** results have been saved *)
| AlreadyThere                  (** "Merges already learned!" (112) *)
| DirExists                     (** os.makedirs has raised FileExistsError (73) *)
| Raised (e : exn).

(** a command to learn [n] merges *)
Inductive tproc :=
| TStart (n : nat)                                                  (** before get_dir_with_most_merges (92) *)
| TListed (n : nat) (k : option nat)                                (** which directory to start from *)
| TRead (n k : nat) (done : merge_list)                             (** merges are read; before prepare_vocabs (101) *)
| TPrepared (n : nat) (done : merge_list) (v : split_vocab) (other : dict str Z)
| TLearned (n k : nat) (files : contents)                           (** before os.path.exists (111) *)
| TChecked (n k : nat) (files : contents)                           (** before os.makedirs (73) *)
| TSaving (n k : nat) (files : contents)
| TEnded (n : nat) (r : tend).

Record tstate := { t_dirs : bstate; t_procs : list tproc }.

(** a file is opened, or more of its text reaches it *)
Definition grows (o : option str) (p : str) : Prop :=
  match o with None => p = [] | Some p0 => exists r, r <> [] /\ p = p0 ++ r end.
(** the files are written one after the other (77-83) *)
Inductive writes (c : contents) : bdir -> bdir -> Prop :=
| wr_res o p q : c_res c = p ++ q -> grows o p ->
    writes c {| f_res := o; f_cache := None; f_merges := None; f_reass := None |}
             {| f_res := Some p; f_cache := None; f_merges := None; f_reass := None |}
| wr_cache o p q : c_cache c = p ++ q -> grows o p ->
    writes c {| f_res := Some (c_res c); f_cache := o; f_merges := None; f_reass := None |}
             {| f_res := Some (c_res c); f_cache := Some p; f_merges := None; f_reass := None |}
| wr_merges o p q : c_merges c = p ++ q -> grows o p ->
    writes c {| f_res := Some (c_res c); f_cache := Some (c_cache c); f_merges := o; f_reass := None |}
             {| f_res := Some (c_res c); f_cache := Some (c_cache c); f_merges := Some p; f_reass := None |}
| wr_reass o p q : c_reass c = p ++ q -> grows o p ->
    writes c {| f_res := Some (c_res c); f_cache := Some (c_cache c); f_merges := Some (c_merges c); f_reass := o |}
             {| f_res := Some (c_res c); f_cache := Some (c_cache c); f_merges := Some (c_merges c); f_reass := Some p |}.

Definition empty_dir : bdir := {| f_res := None; f_cache := None; f_merges := None; f_reass := None |}.

Section Together.
  Variable py_int : str -> option Z.
  Variable c : corpus.

  (** read_merges (96) and prepare_vocabs (101) of the directory that was chosen *)
  Definition read_done (dirs : bstate) (k : nat) : res merge_list :=
    match dget dirs k with Some d => s <- open_file (f_merges d) ;; read_merges s None | None => Err FileNotFoundError end.
  Definition read_vocab (dirs : bstate) (k : nat) : res (split_vocab * dict str Z) :=
    match dget dirs k with Some d => prepare_resume c d | None => Err FileNotFoundError end.
  (** do_merges and what follows (105-110): the name and the content of the new directory *)
  Definition learned_from (n : nat) (done : merge_list) (v : split_vocab) (other : dict str Z) : res (nat * contents) :=
    learned <- do_merges v (n - length done) ;;
    let (v', new) := learned in
    let v2 := fold_left (fun d kv => dset d (split_on 32 (fst kv)) (snd kv)) other v' in
    merges <- ml_add done new ;;
    Ok (length merges, results v2 merges).

  (** what one command does next: the directories and the command afterwards *)
  Inductive tdoes (dirs : bstate) : tproc -> bstate -> tproc -> Prop :=
  | td_list n : tdoes dirs (TStart n) dirs (TListed n (most_merges py_int dirs n))
  | td_scratch n : tdoes dirs (TListed n None) dirs (let (v, other) := prepare_scratch c in TPrepared n ml_empty v other)
  | td_merges n k : tdoes dirs (TListed n (Some k)) dirs
      (match read_done dirs k with Ok done => TRead n k done | Err e => TEnded n (Raised e) end)
  | td_vocab n k done : tdoes dirs (TRead n k done) dirs
      (match read_vocab dirs k with Ok (v, other) => TPrepared n done v other | Err e => TEnded n (Raised e) end)
  | td_learn n done v other : tdoes dirs (TPrepared n done v other) dirs
      (match learned_from n done v other with Ok (k, files) => TLearned n k files | Err e => TEnded n (Raised e) end)
  | td_exists n k files : tdoes dirs (TLearned n k files) dirs (if dmem dirs k then TEnded n AlreadyThere else TChecked n k files)
  | td_makedirs n k files : dmem dirs k = false -> tdoes dirs (TChecked n k files) (dset dirs k empty_dir) (TSaving n k files)
  | td_makedirs_fails n k files : dmem dirs k = true -> tdoes dirs (TChecked n k files) dirs (TEnded n DirExists)
  | td_write n k files d d' : dget dirs k = Some d -> writes files d d' -> tdoes dirs (TSaving n k files) (dset dirs k d') (TSaving n k files)
  | td_saved n k files : dget dirs k = Some (complete files) -> tdoes dirs (TSaving n k files) dirs (TEnded n Learned).

  Inductive tstep : tstate -> tstate -> Prop :=
  | t_step dirs dirs' p p' l1 l2 : tdoes dirs p dirs' p' ->
      tstep {| t_dirs := dirs; t_procs := l1 ++ p :: l2 |} {| t_dirs := dirs'; t_procs := l1 ++ p' :: l2 |}.

  Definition t_started (n : nat) (s : tstate) : tstate := {| t_dirs := t_dirs s; t_procs := t_procs s ++ [TStart n] |}.
  Definition t_init : tstate := {| t_dirs := []; t_procs := [] |}.

  (** commands start at any time *)
  Inductive t_later (s : tstate) : tstate -> Prop :=
  | tl_here : t_later s s
  | tl_start n s1 : t_later s s1 -> t_later s (t_started n s1)
  | tl_step s1 s2 : t_later s s1 -> tstep s1 s2 -> t_later s s2.

  Definition looks (p : tproc) : bool := match p with TStart _ => true | _ => false end.
  Definition saving (p : tproc) : bool := match p with TSaving _ _ _ => true | _ => false end.
  (** no command looks for earlier results while another one is saving its own *)
  Inductive apart : tstate -> tstate -> Prop :=
  | ap_step dirs dirs' p p' l1 l2 : tdoes dirs p dirs' p' ->
      (looks p = true -> forall q, In q (l1 ++ l2) -> saving q = false) ->
      apart {| t_dirs := dirs; t_procs := l1 ++ p :: l2 |} {| t_dirs := dirs'; t_procs := l1 ++ p' :: l2 |}.
  Inductive t_apart : tstate -> Prop :=
  | ta_init : t_apart t_init
  | ta_start n s : t_apart s -> t_apart (t_started n s)
  | ta_step s s' : t_apart s -> apart s s' -> t_apart s'.
End Together.
