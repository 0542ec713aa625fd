(** The saved list of the files of a dataset: get_all_files, files_need_to_be_saved, set_path_ready, is_path_ready and
    is_path_outdated of codeprep/pipeline/dataset.py (261-276, 286-287, 295-315), walk_and_save of codeprep/dirutils.py (28-54),
    and their callers, which take all files or stop after a limit (pipeline/parse_projects.py 49, 58-68, pipeline/to_repr.py 119, 151-161,
    pipeline/stages.py 46-68, api/corpus.py 57-61).

    A process is one call of get_all_files together with the loop that consumes it.  The name of the list (path_to_file_list_folder, 254) is fixed;
    it belongs to one time stamp of the dataset.  The content of the dataset is the list of files that a scan delivers.
    Times are seconds (get_timestamp).  The list of directories is written beside the list of files and left out. *)
From Verif Require Import M_Base.

Inductive fproc :=
| FStart (caching : bool)                         (** before files_need_to_be_saved (262) *)
| FNeed (caching : bool)                          (** a scan is needed; before open (dirutils.py 30) *)
| FScanning (caching : bool) (got rest : list str) (** delivered, and still to come *)
| FMark (got : list str)                          (** lists are closed; before open in set_path_ready (297) *)
| FMark2 (got : list str)                         (** the marker is opened and empty; before the time stamp is written (298) *)
| FDone (result : option (list str)).             (** all files, or [None]: stopped early or killed *)

Record fstate := {
  l_now : nat;
  l_ds : list str;                       (** the files of the dataset *)
  l_folder : option (list str * nat);    (** saved list and time of its last change *)
  l_mark : option (option nat);          (** marker file; [Some None]: empty *)
  l_walks : list (list str);             (** what the scans that were not broken off have delivered so far (observation only) *)
  l_procs : list fproc
}.

(** files_need_to_be_saved (286-287) *)
Definition need_scan (folder : option (list str * nat)) (mark : option (option nat)) : bool :=
  match folder, mark with
  | Some (_, t), Some (Some m) => negb (Nat.eqb m t)
  | _, _ => true
  end.

(** the dataset has changed: a scan that is going on delivers what it finds from then on *)
Inductive rescanned : fproc -> fproc -> Prop :=
| rs_scan c got rest rest' : rescanned (FScanning c got rest) (FScanning c got rest')
| rs_other p : rescanned p p.

Inductive fstep : fstate -> fstate -> Prop :=
| f_read now ds l t w c l1 l2 :
    fstep {| l_now := now; l_ds := ds; l_folder := Some (l, t); l_mark := Some (Some t); l_walks := w; l_procs := l1 ++ FStart c :: l2 |}
          {| l_now := now; l_ds := ds; l_folder := Some (l, t); l_mark := Some (Some t); l_walks := w; l_procs := l1 ++ FDone (Some l) :: l2 |}
| f_need now ds fo m w c l1 l2 : need_scan fo m = true ->
    fstep {| l_now := now; l_ds := ds; l_folder := fo; l_mark := m; l_walks := w; l_procs := l1 ++ FStart c :: l2 |}
          {| l_now := now; l_ds := ds; l_folder := fo; l_mark := m; l_walks := w; l_procs := l1 ++ FNeed c :: l2 |}
| f_open now ds fo m w c l1 l2 :
    fstep {| l_now := now; l_ds := ds; l_folder := fo; l_mark := m; l_walks := w; l_procs := l1 ++ FNeed c :: l2 |}
          {| l_now := now; l_ds := ds; l_folder := Some ([], now); l_mark := m; l_walks := w; l_procs := l1 ++ FScanning c [] ds :: l2 |}
| f_deliver now ds fo m w c got f rest l1 l2 :
    fstep {| l_now := now; l_ds := ds; l_folder := fo; l_mark := m; l_walks := w; l_procs := l1 ++ FScanning c got (f :: rest) :: l2 |}
          {| l_now := now; l_ds := ds; l_folder := fo; l_mark := m; l_walks := w; l_procs := l1 ++ FScanning c (got ++ [f]) rest :: l2 |}
(** buffered lines reach the file *)
| f_flush now ds fo m w c got rest l1 l2 :
    fstep {| l_now := now; l_ds := ds; l_folder := fo; l_mark := m; l_walks := w; l_procs := l1 ++ FScanning c got rest :: l2 |}
          {| l_now := now; l_ds := ds; l_folder := Some (got, now); l_mark := m; l_walks := w; l_procs := l1 ++ FScanning c got rest :: l2 |}
(** the caller stops (parse_projects.py 66, to_repr.py 159): the generator is closed *)
| f_stop now ds fo m w c got rest l1 l2 :
    fstep {| l_now := now; l_ds := ds; l_folder := fo; l_mark := m; l_walks := w; l_procs := l1 ++ FScanning c got rest :: l2 |}
          {| l_now := now; l_ds := ds; l_folder := Some (got, now); l_mark := m; l_walks := w; l_procs := l1 ++ FDone None :: l2 |}
| f_end now ds fo m w c got l1 l2 :
    fstep {| l_now := now; l_ds := ds; l_folder := fo; l_mark := m; l_walks := w; l_procs := l1 ++ FScanning c got [] :: l2 |}
          {| l_now := now; l_ds := ds; l_folder := Some (got, now); l_mark := m; l_walks := got :: w;
             l_procs := l1 ++ (if c then FMark got else FDone (Some got)) :: l2 |}
| f_mark_open now ds fo m w got l1 l2 :
    fstep {| l_now := now; l_ds := ds; l_folder := fo; l_mark := m; l_walks := w; l_procs := l1 ++ FMark got :: l2 |}
          {| l_now := now; l_ds := ds; l_folder := fo; l_mark := Some None; l_walks := w; l_procs := l1 ++ FMark2 got :: l2 |}
| f_mark_write now ds l t m w got l1 l2 :
    fstep {| l_now := now; l_ds := ds; l_folder := Some (l, t); l_mark := m; l_walks := w; l_procs := l1 ++ FMark2 got :: l2 |}
          {| l_now := now; l_ds := ds; l_folder := Some (l, t); l_mark := Some (Some t); l_walks := w; l_procs := l1 ++ FDone (Some got) :: l2 |}
| f_tick now ds fo m w ps :
    fstep {| l_now := now; l_ds := ds; l_folder := fo; l_mark := m; l_walks := w; l_procs := ps |}
          {| l_now := S now; l_ds := ds; l_folder := fo; l_mark := m; l_walks := w; l_procs := ps |}.

Inductive f_kill : fstate -> fstate -> Prop :=
| f_kill_intro now ds fo m w p l1 l2 : (forall r, p <> FDone r) ->
    f_kill {| l_now := now; l_ds := ds; l_folder := fo; l_mark := m; l_walks := w; l_procs := l1 ++ p :: l2 |}
           {| l_now := now; l_ds := ds; l_folder := fo; l_mark := m; l_walks := w; l_procs := l1 ++ FDone None :: l2 |}.
Inductive f_change : fstate -> fstate -> Prop :=
| f_change_intro now ds ds' fo m w ps ps' : Forall2 rescanned ps ps' ->
    f_change {| l_now := now; l_ds := ds; l_folder := fo; l_mark := m; l_walks := w; l_procs := ps |}
             {| l_now := now; l_ds := ds'; l_folder := fo; l_mark := m; l_walks := w; l_procs := ps' |}.
Definition f_started (c : bool) (s : fstate) : fstate :=
  {| l_now := l_now s; l_ds := l_ds s; l_folder := l_folder s; l_mark := l_mark s; l_walks := l_walks s; l_procs := l_procs s ++ [FStart c] |}.
Definition f_init (now : nat) (ds : list str) : fstate :=
  {| l_now := now; l_ds := ds; l_folder := None; l_mark := None; l_walks := []; l_procs := [] |}.
Definition f_all_done (s : fstate) : Prop := forall p, In p (l_procs s) -> exists r, p = FDone r.

(** One call after the other, with kills; [ch]: the dataset may change at any time. *)
Inductive f_seq (ch : bool) (s0 : fstate) : fstate -> Prop :=
| fs_here : f_seq ch s0 s0
| fs_start c s : f_seq ch s0 s -> f_all_done s -> f_seq ch s0 (f_started c s)
| fs_step s s' : f_seq ch s0 s -> fstep s s' -> f_seq ch s0 s'
| fs_kill s s' : f_seq ch s0 s -> f_kill s s' -> f_seq ch s0 s'
| fs_change s s' : ch = true -> f_seq ch s0 s -> f_change s s' -> f_seq ch s0 s'.

(** Several calls at the same time, without kills and changes. *)
Inductive f_par (s0 : fstate) : fstate -> Prop :=
| fp_here : f_par s0 s0
| fp_start c s : f_par s0 s -> f_par s0 (f_started c s)
| fp_step s s' : f_par s0 s -> fstep s s' -> f_par s0 s'.

(** Between two calls the marker is removed and, or, the list itself (README.md: the cache can be removed). *)
Inductive f_removed : fstate -> fstate -> Prop :=
| f_removed_intro now ds fo fo' m w ps : (fo' = fo \/ fo' = None) ->
    f_removed {| l_now := now; l_ds := ds; l_folder := fo; l_mark := m; l_walks := w; l_procs := ps |}
              {| l_now := now; l_ds := ds; l_folder := fo'; l_mark := None; l_walks := w; l_procs := ps |}.
(** One call after the other, with kills and removals *)
Inductive f_hist (s0 : fstate) : fstate -> Prop :=
| fh_here : f_hist s0 s0
| fh_start c s : f_hist s0 s -> f_all_done s -> f_hist s0 (f_started c s)
| fh_step s s' : f_hist s0 s -> fstep s s' -> f_hist s0 s'
| fh_kill s s' : f_hist s0 s -> f_kill s s' -> f_hist s0 s'
| fh_removed s s' : f_hist s0 s -> f_all_done s -> f_removed s s' -> f_hist s0 s'.
