(** * Symbolic links to directories (codeprep/dirutils.py 27-52: os.walk with followlinks=True)

    M_Dataset.v takes a dataset as a tree in which links to directories are replaced by what they lead
    to.  That is no finite tree if a link leads back to a directory around it.  Here the file system has
    links with targets; the tree that os.walk meets is made from it.

    A path that goes over more links than the system allows (40 on Linux, [budget] here, less those in the
    path of the dataset) cannot be resolved: entry.is_dir() of os.scandir fails with OSError, os.walk then
    takes the entry for a file, and os.path.islink (dirutils.py 49), which does not follow the last link, is
    true.  So such an entry is treated like a link to a file.

    Simplified: a target is given by the path of the directory that it finally leads to, without links, and
    counts as one link; the limit for the length of a path (4096 bytes) is not met; the file system does not
    change. *)
From Verif Require Import M_Base M_Dataset.

(** [GLink] a link that does not lead to a directory, [GTo target] a link to the directory at [target],
    counted from the root of the file system *)
Inductive gnode :=
| GFile (mtime : N)
| GLink
| GDir (mtime : N) (entries : list (str * gnode))
| GTo (target : list str).

(** the node at a path without links *)
Fixpoint lookup (t : gnode) (p : list str) : option gnode :=
  match p with
  | [] => Some t
  | n :: p' =>
      match t with
      | GDir _ es => match find (fun e => eqb (fst e) n) es with Some e => lookup (snd e) p' | None => None end
      | _ => None
      end
  end.

(** what os.scandir and os.walk see at a node that was reached with [budget] links left (dirutils.py 39) *)
Fixpoint view (top : gnode) (budget : nat) : gnode -> node :=
  fix go (t : gnode) : node :=
    match t with
    | GFile m => File m
    | GLink => Link
    | GDir m es => Dir false m (map (fun e => (fst e, go (snd e))) es)
    | GTo target =>
        match budget with
        | O => Link
        | S rest =>
            match lookup top target with
            | Some d => match view top rest d with Dir _ m es => Dir true m es | _ => Link end
            | None => Link
            end
        end
    end.

(** walk_and_save (dirutils.py 27-52): the names of files for the dataset [d] *)
Definition scan_links (top : gnode) (budget : nat) (path : str) (d : gnode) (exts : option (list str)) : list str :=
  scan_files path (view top budget d) exts.
