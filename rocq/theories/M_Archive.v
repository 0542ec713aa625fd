(** * Setting aside results that were changed (archive_path of codeprep/pipeline/dataset.py 318-324)

    The tree, its paths and their names as in M_Place.  In addition directories are on devices ([dev]), and os.rename fails
    as in POSIX; what a call that fails has done before stays. *)
From Verif Require Import M_Base L_Base M_Dataset M_Timestamp M_Place.

Inductive failure :=
| NotFound       (** FileNotFoundError, or a part of the path is not a directory *)
| OtherDevice    (** OSError: EXDEV *)
| Inside         (** OSError: EINVAL, a directory would get below itself; or the root is renamed *)
| NotEmpty       (** OSError: ENOTEMPTY *)
| WrongKind      (** IsADirectoryError, NotADirectoryError *)
| NoTime.        (** ValueError of get_timestamp *)

(** the first path is a beginning of the second *)
Fixpoint starts (p q : list str) : bool :=
  match p, q with
  | [], _ => true
  | x :: p', y :: q' => eqb x y && starts p' q'
  | _ :: _, [] => false
  end.

Section Archive.
  Variable dev : list str -> nat.          (** the device of a directory *)
  Variable clock : N -> N.                 (** as in M_Timestamp *)
  Variable limit : nat.
  Variable preps : list str.               (** DEFAULT_PREP_DATASETS_DIR (config.py 36) *)

  (** os.rename *)
  Definition rename (t : N) (p q : list str) (fs : entry) : entry + failure :=
    match look p fs, look (parent q) fs with
    | Some x, Some (EDir _ _) =>
        if is_nil p || is_nil q then inr Inside
        else if negb (Nat.eqb (dev (parent p)) (dev (parent q))) then inr OtherDevice
        else if starts p q then if starts q p then inl fs else inr Inside
        else match look q fs, x with
             | None, _ => inl (perform t (Rename p q) fs)
             | Some (EFile _ _), EFile _ _ => inl (perform t (Rename p q) fs)
             | Some (EDir _ []), EDir _ _ => inl (perform t (Rename p q) fs)
             | Some (EDir _ (_ :: _)), EDir _ _ => inr NotEmpty
             | _, _ => inr WrongKind
             end
    | _, _ => inr NotFound
    end.

  (** the names in the directory for archived datasets (323-324) *)
  Definition archived (n : str) (s : stamp) : list str := preps ++ [n ++ lit ".archived." ++ stamp_str s].

  (** archive_path; [Some e]: it has ended with an exception *)
  Definition archive_path (t : N) (p : list str) (fs : entry) : entry * option failure :=
    match look p fs with
    | None => (fs, Some NotFound)
    | Some x =>
        match get_timestamp clock limit (shape x) with
        | Err _ => (fs, Some NoTime)
        | Ok s =>
            let fs1 := match look preps fs with Some _ => fs | None => make_dirs t preps fs end in
            match rename t p (archived (name_of p) s) fs1 with
            | inr e => (fs1, Some e)
            | inl fs2 =>
                match rename t (marker p) (archived (name_of (marker p)) s) fs2 with
                | inr e => (fs2, Some e)
                | inl fs3 => (fs3, None)
                end
            end
        end
    end.

  (** is_path_ready and is_path_outdated (301-315) are both true: the stage is archived before it is done again
      (stages.py 19-39) *)
  Definition to_archive (p : list str) (fs : entry) : bool :=
    match look p fs, look (marker p) fs with
    | Some x, Some (EFile _ c) =>
        match get_timestamp clock limit (shape x) with Ok s => negb (eqb c (stamp_str s)) | Err _ => false end
    | _, _ => false
    end.

  (** calls one after the other, whether they fail or not *)
  Definition archive_all (calls : list (N * list str)) (fs : entry) : entry :=
    fold_left (fun fs tp => fst (archive_path (fst tp) (snd tp) fs)) calls fs.
End Archive.
