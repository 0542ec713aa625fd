(** Several learn-bpe commands for different datasets at the same time: how the ids of the codes are given (handle_learnbpe of
    codeprep/cli/impl.py 54-62, create_new_id_from, write_bpe_codes_id, get_codes_id_by_bpe_path and
    _get_all_custom_bpe_codes_and_max_merges of codeprep/pipeline/bperegistry.py 91-125, 223-232), step by step.

    A directory of codes is the content of its id file and the names of the directories in it, as in M_Registry.  A command that is
    killed is one that makes no more steps.  What is learned is left out: in the end there is one more list of merges. *)
From Coq Require Import Permutation.
From Verif Require Import M_Base L_Base M_Registry.

(** the name of the directory of codes (M_Registry.bpe_dir_name), the basename of the dataset, the suffix of the configuration, --id, and
    the name of the directory of the merges that are learned *)
Record icmd := { q_name : str; q_base : str; q_suffix : str; q_given : option str; q_sub : str }.

Inductive iproc :=
| IStart (c : icmd)                                                       (** before Dataset.create (54) *)
| IMade (c : icmd)                                                        (** the directory exists; before looking for the id (56) *)
| IWants (c : icmd)                                                       (** it has no id; before create_new_id_from (57) *)
| IScan (c : icmd) (todo : list str) (seen : list bpe_dir)                (** listing the ids in use: these are still to be read *)
| IHalf (c : icmd) (todo : list str) (n : str) (id : option str) (seen : list bpe_dir)  (** the id of one is read, its merges are not *)
| IHas (c : icmd) (i : str)                                               (** before write_bpe_codes_id *)
| IOpen (c : icmd) (i : str)                                              (** the id file is open for writing: it is empty *)
| ILearn (c : icmd)                                                       (** bpelearner.run (62) *)
| IDone (c : icmd)
| IFailed (c : icmd) (e : exn).

Definition cmd_of (p : iproc) : icmd :=
  match p with
  | IStart c | IMade c | IWants c | IScan c _ _ | IHalf c _ _ _ _ | IHas c _ | IOpen c _ | ILearn c | IDone c | IFailed c _ => c
  end.

Definition idirs := dict str bpe_dir.
Record istate := { i_dirs : idirs; i_procs : list iproc }.

Section Ids.
  Variable py_int : str -> option Z.
  Variable maxsize : Z.
  Variable strip : str -> str.
  Variable number_of : str -> str -> option str.

  (** Dataset.create (127-153) makes the directory *)
  Definition made (dirs : idirs) (n : str) : idirs := if dmem dirs n then dirs else dset dirs n (None, []).
  Definition ids_at (dirs : idirs) (n : str) : option str := match dget dirs n with Some d => fst d | None => None end.
  Definition subs_at (dirs : idirs) (n : str) : list str := match dget dirs n with Some d => snd d | None => [] end.

  (** what a command does next: the directories and the command afterwards *)
  Inductive idoes (dirs : idirs) : iproc -> idirs -> iproc -> Prop :=
  | id_make c : idoes dirs (IStart c) (made dirs (q_name c)) (IMade c)
  (* get_codes_id_by_bpe_path (91-97); an empty id is none (impl.py 56) *)
  | id_look c : idoes dirs (IMade c) dirs
      (match codes_id strip (ids_at dirs (q_name c), []) with Some (_ :: _) => ILearn c | _ => IWants c end)
  (* create_new_id_from (101-102) *)
  | id_given c x i : q_given c = Some (x :: i) -> idoes dirs (IWants c) dirs (IHas c (x :: i))
  (* os.walk (225), in any order *)
  | id_walk c names : (forall x i, q_given c <> Some (x :: i)) -> Permutation names (dkeys dirs) ->
      idoes dirs (IWants c) dirs (IScan c names [])
  (* 228 *)
  | id_read c n todo seen : idoes dirs (IScan c (n :: todo) seen) dirs (IHalf c todo n (ids_at dirs n) seen)
  (* 229-231 *)
  | id_merges c n todo id seen : idoes dirs (IHalf c todo n id seen) dirs (IScan c todo (seen ++ [(id, subs_at dirs n)]))
  (* 104-119 *)
  | id_new c seen : idoes dirs (IScan c [] seen) dirs
      (match create_new_id py_int maxsize strip number_of (q_base c) (q_suffix c) seen with Ok i => IHas c i | Err e => IFailed c e end)
  (* open(..., 'w') (124) *)
  | id_open c i : idoes dirs (IHas c i) (dset dirs (q_name c) (Some [], subs_at dirs (q_name c))) (IOpen c i)
  (* 125 *)
  | id_write c i : idoes dirs (IOpen c i) (dset dirs (q_name c) (Some i, subs_at dirs (q_name c))) (ILearn c)
  (* save_results (bpelearner.py 73) *)
  | id_learn c : idoes dirs (ILearn c) (dset dirs (q_name c) (ids_at dirs (q_name c), subs_at dirs (q_name c) ++ [q_sub c])) (IDone c).

  Inductive istep : istate -> istate -> Prop :=
  | i_step dirs dirs' p p' l1 l2 : idoes dirs p dirs' p' ->
      istep {| i_dirs := dirs; i_procs := l1 ++ p :: l2 |} {| i_dirs := dirs'; i_procs := l1 ++ p' :: l2 |}
  (* preprocessing makes the directory too *)
  | i_touch dirs n l : istep {| i_dirs := dirs; i_procs := l |} {| i_dirs := made dirs n; i_procs := l |}.

  Inductive i_later (s : istate) : istate -> Prop :=
  | il_here : i_later s s
  | il_step s1 s2 : i_later s s1 -> istep s1 s2 -> i_later s s2.

  Definition i_begin (dirs : idirs) (cs : list icmd) : istate := {| i_dirs := dirs; i_procs := map IStart cs |}.
End Ids.
