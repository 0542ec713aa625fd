(** codeprep/pipeline/vocab.py: merging of partial vocabularies by several processes, the directory with partial
    vocabularies, and calc_vocab with crashes at any point. *)
From Verif Require Import M_Base L_Base M_Literal M_Learn M_Vocab.
From Coq Require Import Permutation.

(** ** The directory with partial vocabularies (path_to_dump)

    [Plain v] is the file {id}.partvocab; [Triple a b n c] is the file {a}_{b}_{n}.partvocab, with the vocabulary
    or, while it is not written completely, None. *)
Inductive pfile :=
| Plain (v : pvocab)
| Triple (a b n : N) (c : option pvocab).

Definition is_plain (i : N) (f : pfile) : bool := match f with Plain v => N.eqb (pv_id v) i | _ => false end.
Definition is_triple (a b n : N) (f : pfile) : bool :=
  match f with Triple a' b' n' _ => N.eqb a' a && N.eqb b' b && N.eqb n' n | _ => false end.

(** [if os.path.exists(...): os.remove(...)] (240-246) *)
Definition rm_plain (i : N) (d : list pfile) : list pfile := filter (fun f => negb (is_plain i f)) d.
(** [os.remove] (231) *)
Definition rm_triple (a b n : N) (d : list pfile) : list pfile := filter (fun f => negb (is_triple a b n f)) d.
(** [pickle.dump(first, open(path_to_new_file, 'wb'))] (200): creates or replaces the file *)
Definition put_triple (a b n : N) (c : option pvocab) (d : list pfile) : list pfile := Triple a b n c :: rm_triple a b n d.
(** [os.rename] (248-249): replaces a file of the new name; the content has id [n] *)
Definition rename_triple (a b n : N) (m : pvocab) (d : list pfile) : list pfile :=
  Plain m :: rm_plain n (rm_triple a b n d).

(** finish_file_dumping (226-249): the directory after each operation.  [eof] tells whether reading an
    incomplete file raises EOFError; any other exception ends the program. *)
Definition finish_file_dumping (eof : bool) (a b n : N) (c : option pvocab) (d : list pfile) : list (list pfile) * res (list pfile) :=
  match c with
  | None => if eof then ([rm_triple a b n d], Ok (rm_triple a b n d)) else ([], Err ValueError)
  | Some m =>
      let d1 := rm_plain a d in
      let d2 := rm_plain b d1 in
      let d3 := rename_triple a b n m d2 in
      ([d1; d2; d3], Ok d3)
  end.

(** load_partial_vocabs (285-300): [triples] are the names listed by the first os.listdir, with their contents;
    the directory after each operation, and the final one *)
Fixpoint finish_all (eof : bool) (triples : list (N * N * N * option pvocab)) (d : list pfile)
  : list (list pfile) * res (list pfile) :=
  match triples with
  | [] => ([], Ok d)
  | (a, b, n, c) :: t =>
      let '(tr, r) := finish_file_dumping eof a b n c d in
      match r with
      | Ok d' => let '(tr', r') := finish_all eof t d' in (tr ++ tr', r')
      | Err e => (tr, Err e)
      end
  end.
Definition triples_of (d : list pfile) : list (N * N * N * option pvocab) :=
  flat_map (fun f => match f with Triple a b n c => [(a, b, n, c)] | Plain _ => [] end) d.
(** the second loop: every file is loaded *)
Definition load_files (d : list pfile) : res (list pvocab) :=
  mapM (fun f => match f with Plain v => Ok v | Triple _ _ _ (Some v) => Ok v | Triple _ _ _ None => Err EOFError end) d.

(** ** mapify_tasks (277-282), create_chunk_queue (272-274)

    The chunks in the order in which they are first met, and the tickets; -1 is None. *)
Fixpoint chunks_of (l : list pvocab) (seen : list nat) : list nat :=
  match l with
  | [] => seen
  | v :: t => if existsb (Nat.eqb (pv_chunk v)) seen then chunks_of t seen else chunks_of t (seen ++ [pv_chunk v])
  end.
Definition in_chunk (c : nat) (v : pvocab) : bool := Nat.eqb (pv_chunk v) c.
Definition chunk_size (c : nat) (l : list pvocab) : nat := length (filter (in_chunk c) l).
Definition chunk_tickets (l : list pvocab) : list nat :=
  flat_map (fun c => repeat c (chunk_size c l - 1)) (chunks_of l []).

(** ** Processes: VocabMerger.run (124-163), _finish_merges (165-185), _merge (192-203)

    Stages of a merge of [v] and [w] into [m]:
    Start (nothing written), Dumping (the file exists), Dumped (it is complete), RemovedFirst, RemovedSecond,
    Renamed. *)
Inductive stage := Start | Dumping | Dumped | RemovedFirst | RemovedSecond | Renamed.
(** what follows a merge: the result is put back (163), or the next chunk is merged (173-179) *)
Inductive next_op := PutBack | Continue (rest : list pvocab).
Inductive pstate :=
| PIdle                                                        (** before chunk_queue.get (126) *)
| PWant (c : nat)                                              (** before the first get (141) *)
| PGot (c : nat) (v : pvocab)                                  (** before the second get (142) *)
| PMerge (s : stage) (v w m : pvocab) (k : next_op)            (** in _merge *)
| PStop                                                        (** got -1 (127), before compare_and_dec *)
| PCollect (cs : list nat) (acc : list pvocab)                 (** collecting from the queues of chunks [cs] (167-168) *)
| PFin (first : pvocab) (rest : list pvocab)                   (** before the next merge (173) *)
| PStats (first : pvocab) (opened : bool)                      (** write_stats (183) *)
| PVocab (first : pvocab) (opened : bool)                      (** write_vocab (184) *)
| PRemove                                                      (** shutil.rmtree (185) *)
| PDone (wrote : bool).                                        (** terminated; [wrote]: after _finish_merges *)

(** an output file: not there, opened but not completely written, complete *)
Inductive ofile (A : Type) := Absent | Part | Full (a : A).
Arguments Absent {A}.
Arguments Part {A}.
Arguments Full {A} a.
Definition exists_file {A} (f : ofile A) : bool := match f with Absent => false | _ => true end.

(** What the processes share.  The queues of tasks are one collection; each vocabulary is in the queue of its
    chunk.  A queue with several producers need not be first-in first-out, so any element of a queue may be
    taken.  The queue of tickets has one producer and is first-in first-out. *)
Record shared := {
  sh_queue : list (option nat);       (** chunk_queue *)
  sh_tasks : list pvocab;             (** tasks *)
  sh_counter : nat;                   (** process_counter *)
  sh_left : nat;                      (** merges_left_counter *)
  sh_next : N;                        (** ids generated so far are smaller *)
  sh_disk : list pfile;               (** path_to_dump *)
  sh_ready : bool;                    (** the file 'ready' *)
  sh_size : ofile Z;                  (** the first line of the vocabsize file *)
  sh_vocab : ofile str                (** the vocab file *)
}.

Definition with_queue sh q := {| sh_queue := q; sh_tasks := sh_tasks sh; sh_counter := sh_counter sh; sh_left := sh_left sh;
  sh_next := sh_next sh; sh_disk := sh_disk sh; sh_ready := sh_ready sh; sh_size := sh_size sh; sh_vocab := sh_vocab sh |}.
Definition with_tasks sh t := {| sh_queue := sh_queue sh; sh_tasks := t; sh_counter := sh_counter sh; sh_left := sh_left sh;
  sh_next := sh_next sh; sh_disk := sh_disk sh; sh_ready := sh_ready sh; sh_size := sh_size sh; sh_vocab := sh_vocab sh |}.
Definition with_counter sh c := {| sh_queue := sh_queue sh; sh_tasks := sh_tasks sh; sh_counter := c; sh_left := sh_left sh;
  sh_next := sh_next sh; sh_disk := sh_disk sh; sh_ready := sh_ready sh; sh_size := sh_size sh; sh_vocab := sh_vocab sh |}.
Definition with_left sh l := {| sh_queue := sh_queue sh; sh_tasks := sh_tasks sh; sh_counter := sh_counter sh; sh_left := l;
  sh_next := sh_next sh; sh_disk := sh_disk sh; sh_ready := sh_ready sh; sh_size := sh_size sh; sh_vocab := sh_vocab sh |}.
Definition with_next sh i := {| sh_queue := sh_queue sh; sh_tasks := sh_tasks sh; sh_counter := sh_counter sh; sh_left := sh_left sh;
  sh_next := i; sh_disk := sh_disk sh; sh_ready := sh_ready sh; sh_size := sh_size sh; sh_vocab := sh_vocab sh |}.
Definition with_disk sh d := {| sh_queue := sh_queue sh; sh_tasks := sh_tasks sh; sh_counter := sh_counter sh; sh_left := sh_left sh;
  sh_next := sh_next sh; sh_disk := d; sh_ready := sh_ready sh; sh_size := sh_size sh; sh_vocab := sh_vocab sh |}.
Definition with_ready sh r := {| sh_queue := sh_queue sh; sh_tasks := sh_tasks sh; sh_counter := sh_counter sh; sh_left := sh_left sh;
  sh_next := sh_next sh; sh_disk := sh_disk sh; sh_ready := r; sh_size := sh_size sh; sh_vocab := sh_vocab sh |}.
Definition with_size sh f := {| sh_queue := sh_queue sh; sh_tasks := sh_tasks sh; sh_counter := sh_counter sh; sh_left := sh_left sh;
  sh_next := sh_next sh; sh_disk := sh_disk sh; sh_ready := sh_ready sh; sh_size := f; sh_vocab := sh_vocab sh |}.
Definition with_vocab sh f := {| sh_queue := sh_queue sh; sh_tasks := sh_tasks sh; sh_counter := sh_counter sh; sh_left := sh_left sh;
  sh_next := sh_next sh; sh_disk := sh_disk sh; sh_ready := sh_ready sh; sh_size := sh_size sh; sh_vocab := f |}.

(** One step of one process; [chunks] are the keys of [tasks].  A step that needs an element of an empty queue is
    not possible: the process waits. *)
Inductive pstep (chunks : list nat) : shared -> pstate -> shared -> pstate -> Prop :=
| step_ticket sh c q : sh_queue sh = Some c :: q ->
    pstep chunks sh PIdle (with_queue sh q) (PWant c)
| step_stop sh q : sh_queue sh = None :: q ->
    pstep chunks sh PIdle (with_queue sh q) PStop
(** compare_and_dec(1): the value before the decrement is compared (util.py 98-102) *)
| step_leave sh k : sh_counter sh = S k -> k <> 0 ->
    pstep chunks sh PStop (with_counter sh k) (PDone false)
| step_last sh : sh_counter sh = 1 ->
    pstep chunks sh PStop (with_counter sh 0) (PCollect chunks [])
| step_first sh c v t1 t2 : sh_tasks sh = t1 ++ v :: t2 -> pv_chunk v = c ->
    pstep chunks sh (PWant c) (with_tasks sh (t1 ++ t2)) (PGot c v)
(** the second get, get_and_dec (151), add_vocab and renew_id (196-198) *)
| step_second sh c v w t1 t2 l i : sh_tasks sh = t1 ++ w :: t2 -> pv_chunk w = c -> sh_left sh = S l -> (sh_next sh <= i)%N ->
    pstep chunks sh (PGot c v) (with_next (with_left (with_tasks sh (t1 ++ t2)) l) (i + 1))
      (PMerge Start v w (add_vocab i v w) PutBack)
| step_open sh v w m k :
    pstep chunks sh (PMerge Start v w m k)
      (with_disk sh (put_triple (pv_id v) (pv_id w) (pv_id m) None (sh_disk sh))) (PMerge Dumping v w m k)
| step_dump sh v w m k :
    pstep chunks sh (PMerge Dumping v w m k)
      (with_disk sh (put_triple (pv_id v) (pv_id w) (pv_id m) (Some m) (sh_disk sh))) (PMerge Dumped v w m k)
| step_rm_first sh v w m k :
    pstep chunks sh (PMerge Dumped v w m k) (with_disk sh (rm_plain (pv_id v) (sh_disk sh))) (PMerge RemovedFirst v w m k)
| step_rm_second sh v w m k :
    pstep chunks sh (PMerge RemovedFirst v w m k) (with_disk sh (rm_plain (pv_id w) (sh_disk sh))) (PMerge RemovedSecond v w m k)
| step_rename sh v w m k :
    pstep chunks sh (PMerge RemovedSecond v w m k)
      (with_disk sh (rename_triple (pv_id v) (pv_id w) (pv_id m) m (sh_disk sh))) (PMerge Renamed v w m k)
| step_put sh v w m :
    pstep chunks sh (PMerge Renamed v w m PutBack) (with_tasks sh (sh_tasks sh ++ [m])) PIdle
| step_continue sh v w m rest :
    pstep chunks sh (PMerge Renamed v w m (Continue rest)) sh (PFin m rest)
| step_collect sh c cs acc v t1 t2 : sh_tasks sh = t1 ++ v :: t2 -> pv_chunk v = c ->
    pstep chunks sh (PCollect (c :: cs) acc) (with_tasks sh (t1 ++ t2)) (PCollect cs (acc ++ [v]))
| step_collected sh acc v :
    pstep chunks sh (PCollect [] (acc ++ [v])) sh (PFin v acc)
| step_next sh first v rest i : (sh_next sh <= i)%N ->
    pstep chunks sh (PFin first (v :: rest)) (with_next sh (i + 1)) (PMerge Start first v (add_vocab i first v) (Continue rest))
| step_merged sh first :
    pstep chunks sh (PFin first []) sh (PStats first false)
| step_open_stats sh first :
    pstep chunks sh (PStats first false) (with_size sh Part) (PStats first true)
| step_stats sh first z : vocab_size_line first = Ok z ->
    pstep chunks sh (PStats first true) (with_size sh (Full z)) (PVocab first false)
| step_open_vocab sh first :
    pstep chunks sh (PVocab first false) (with_vocab sh Part) (PVocab first true)
| step_vocab sh first :
    pstep chunks sh (PVocab first true) (with_vocab sh (Full (write_vocab (pv_counts first)))) PRemove
| step_rmtree_file sh d1 f d2 : sh_disk sh = d1 ++ f :: d2 ->
    pstep chunks sh PRemove (with_disk sh (d1 ++ d2)) PRemove
| step_rmtree_ready sh : sh_ready sh = true ->
    pstep chunks sh PRemove (with_ready sh false) PRemove
| step_rmtree sh : sh_disk sh = [] -> sh_ready sh = false ->
    pstep chunks sh PRemove sh (PDone true).

(** The state of a run: the keys of [tasks], the shared state, the processes. *)
Record run := { r_chunks : list nat; r_shared : shared; r_procs : list pstate }.

Inductive step : run -> run -> Prop :=
| step_proc chunks sh sh' l1 p p' l2 : pstep chunks sh p sh' p' ->
    step {| r_chunks := chunks; r_shared := sh; r_procs := l1 ++ p :: l2 |}
         {| r_chunks := chunks; r_shared := sh'; r_procs := l1 ++ p' :: l2 |}.

(** calc_vocab (373-386): the run that starts with the vocabularies [l], [n] processes and the given directory *)
Definition start_run (n : nat) (l : list pvocab) (next : N) (d : list pfile) (size : ofile Z) (vocab : ofile str) : run :=
  let tickets := chunk_tickets l in
  {| r_chunks := chunks_of l [];
     r_shared := {| sh_queue := map Some tickets ++ repeat None n; sh_tasks := l; sh_counter := n;
                    sh_left := length tickets; sh_next := next; sh_disk := d; sh_ready := true;
                    sh_size := size; sh_vocab := vocab |};
     r_procs := repeat PIdle n |}.

(** ** The whole computation with crashes

    [Down]: no process runs; the directory, the file 'ready' and the output files are what is left. *)
Inductive node :=
| Down (d : list pfile) (ready : bool) (size : ofile Z) (vocab : ofile str)
| Up (r : run).

Section System.
  Variable max_groups n_chunks : nat.      (** MAX_INIT_PARTIAL_VOCABS, N_CHUNKS *)
  Variable files : list str.               (** the contents of the preprocessed files *)

  (** calc_vocab (361-363): nothing is done if both files exist *)
  Definition must_run (size : ofile Z) (vocab : ofile str) : bool := negb (exists_file size && exists_file vocab).

  Definition next_after (next : N) (d : list pfile) : Prop :=
    forall f, In f d -> match f with Plain v => (pv_id v < next)%N | Triple a b n _ => (a < next /\ b < next /\ n < next)%N end.

  Inductive sys : node -> node -> Prop :=
  | sys_step r r' : step r r' -> sys (Up r) (Up r')
  (** all processes end, or are killed *)
  | sys_down r : sys (Up r) (Down (sh_disk (r_shared r)) (sh_ready (r_shared r)) (sh_size (r_shared r)) (sh_vocab (r_shared r)))
  (** create_partial_vocabs (303-315), interrupted before the file 'ready' is created: anything may be in the directory *)
  | sys_creating d d' size vocab : must_run size vocab = true ->
      sys (Down d false size vocab) (Down d' false size vocab)
  (** create_partial_vocabs, completed; the pool yields the vocabularies in any order *)
  | sys_created d size vocab groups ids l0 l n next : must_run size vocab = true -> 1 <= n -> files <> [] ->
      groupify files max_groups = Ok groups -> NoDup ids -> length ids = length groups ->
      initial_partial_vocabs max_groups n_chunks files ids = Ok l0 ->
      Permutation l l0 -> next_after next (map Plain l) ->
      sys (Down d false size vocab) (Up (start_run n l next (map Plain l) size vocab))
  (** load_partial_vocabs interrupted after an operation *)
  | sys_loading d size vocab eof ts d' : must_run size vocab = true -> Permutation ts (triples_of d) ->
      In d' (fst (finish_all eof ts d)) ->
      sys (Down d true size vocab) (Down d' true size vocab)
  (** load_partial_vocabs completed *)
  | sys_loaded d size vocab eof ts d' ls l n next : must_run size vocab = true -> 1 <= n -> Permutation ts (triples_of d) ->
      snd (finish_all eof ts d) = Ok d' -> Permutation ls d' -> load_files ls = Ok l -> next_after next d' ->
      sys (Down d true size vocab) (Up (start_run n l next d' size vocab)).

  Inductive reachable : node -> Prop :=
  | reach_init : reachable (Down [] false Absent Absent)
  | reach_sys a b : reachable a -> sys a b -> reachable b.
End System.

(** The timeout of the blocking gets (141-148; BLOCKING_TIMEOUT_SECONDS_LONG): the process gives back what it has and
    returns, without compare_and_dec.  These steps are not part of [step]. *)
Inductive timeout_step : shared -> pstate -> shared -> pstate -> Prop :=
| timeout_first sh c : (forall v, In v (sh_tasks sh) -> pv_chunk v <> c) -> timeout_step sh (PWant c) sh (PDone false)
| timeout_second sh c v : (forall w, In w (sh_tasks sh) -> pv_chunk w <> c) ->
    timeout_step sh (PGot c v) (with_tasks sh (sh_tasks sh ++ [v])) (PDone false).
Inductive step_or_timeout : run -> run -> Prop :=
| sot_step r r' : step r r' -> step_or_timeout r r'
| sot_timeout chunks sh sh' l1 p p' l2 : timeout_step sh p sh' p' ->
    step_or_timeout {| r_chunks := chunks; r_shared := sh; r_procs := l1 ++ p :: l2 |}
                    {| r_chunks := chunks; r_shared := sh'; r_procs := l1 ++ p' :: l2 |}.

(** ** Single processes that end too early

    A process can also end without having said so: one of the gets times out (126, 141-147, 167-168; in the first and the
    last the exception Empty is not caught), an exception is raised, or the operating system kills this process alone.
    What it had taken from the queues is then missing there, except for the vocabulary that is given back (145-146); its files
    stay in the directory.  The other processes go on, and the main process waits for all of them (388-389). *)
Section Losses.
  Variable max_groups n_chunks : nat.
  Variable files : list str.

  Inductive lossy : node -> node -> Prop :=
  | lossy_sys a b : sys max_groups n_chunks files a b -> lossy a b
  | lossy_end chunks sh l1 p l2 :
      lossy (Up {| r_chunks := chunks; r_shared := sh; r_procs := l1 ++ p :: l2 |})
            (Up {| r_chunks := chunks; r_shared := sh; r_procs := l1 ++ PDone false :: l2 |})
  | lossy_give_back chunks sh l1 c v l2 :
      lossy (Up {| r_chunks := chunks; r_shared := sh; r_procs := l1 ++ PGot c v :: l2 |})
            (Up {| r_chunks := chunks; r_shared := with_tasks sh (sh_tasks sh ++ [v]); r_procs := l1 ++ PDone false :: l2 |}).

  Inductive reachable_lossy : node -> Prop :=
  | lossy_init : reachable_lossy (Down [] false Absent Absent)
  | lossy_next a b : reachable_lossy a -> lossy a b -> reachable_lossy b.
End Losses.
