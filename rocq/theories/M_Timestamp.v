(** * The time stamp of a dataset (codeprep/dirutils.py 55-81)

    Names of the directories that codeprep writes contain the time of the last modification of the
    dataset; this is all that distinguishes a changed dataset from the one preprocessed before.

    Modification times are numbers (st_mtime_ns, say).  [clock] gives the second, counted from the
    beginning of 1970, that the clock on the wall shows at such a time: datetime.fromtimestamp of the
    floating point number that os.path.getmtime returns, with the microseconds dropped by the format.
    It includes rounding, time zone and summer time and is arbitrary here. *)
From Coq Require Import List NArith Bool Lia.
From Verif Require Import M_Base M_Dataset.
Import ListNotations.
Local Open Scope N_scope.

(** os.path.getmtime of a directory or a file that is not a link; a link to a directory shows the time
    of the directory.  Links to files are not asked (line 72) *)
Definition node_mtime (t : node) : list N :=
  match t with File m => [m] | Link => [] | Dir _ m _ => [m] end.

(** walk_path (dirutils.py 57-74): the times that are looked at.  The counter grows by one with every
    time that is yielded, and nothing is yielded once it has reached the limit.  The path of the dataset
    itself is not a link to a file *)
Definition level_mtimes (es : list (str * node)) : list N :=
  flat_map (fun e => node_mtime (snd e)) (filter (fun e => is_dir (snd e)) es)
  ++ flat_map (fun e => node_mtime (snd e)) (filter (fun e => negb (is_dir (snd e))) es).
Definition inspected (limit : nat) (t : node) : list N :=
  match t with
  | File m => [m]
  | Link => []
  | Dir _ m [] => [m]
  | Dir _ _ _ => firstn limit (flat_map (fun w => level_mtimes (snd w)) (walk false [] t))
  end.

(** get_dir_last_modification (dirutils.py 55-77): max of an empty sequence is a ValueError *)
Definition last_modification (limit : nat) (t : node) : res N :=
  match inspected limit t with
  | [] => Err ValueError
  | m :: ms => Ok (fold_left N.max ms m)
  end.

(** ** strftime with %y-%m-%dT%H-%M-%S (dirutils.py 80-82) of a number of seconds since 1970 *)
Definition leap (y : N) : bool := (y mod 4 =? 0) && (negb (y mod 100 =? 0) || (y mod 400 =? 0)).
Definition year_len (y : N) : N := if leap y then 366 else 365.
Definition month_lens (y : N) : list N :=
  [31; if leap y then 29 else 28; 31; 30; 31; 30; 31; 31; 30; 31; 30; 31].
Fixpoint year_split (fuel : nat) (y d : N) : N * N :=
  match fuel with
  | O => (y, d)
  | S f => if d <? year_len y then (y, d) else year_split f (y + 1) (d - year_len y)
  end.
Fixpoint month_split (ls : list N) (mo d : N) : N * N :=
  match ls with
  | [] => (mo, d)
  | l :: ls' => if d <? l then (mo, d) else month_split ls' (mo + 1) (d - l)
  end.
Definition civil (s : N) : stamp :=
  let day := s / 86400 in
  let r := s mod 86400 in
  let (y, yd) := year_split (S (N.to_nat (day / 365))) 1970 day in
  let (mo, md) := month_split (month_lens y) 1 yd in
  {| st_y := y mod 100; st_mo := mo; st_d := md + 1;
     st_h := r / 3600; st_mi := (r mod 3600) / 60; st_s := r mod 60 |}.

(** get_timestamp (dirutils.py 80-82) *)
Definition get_timestamp (clock : N -> N) (limit : nat) (t : node) : res stamp :=
  bind (last_modification limit t) (fun m => Ok (civil (clock m))).
