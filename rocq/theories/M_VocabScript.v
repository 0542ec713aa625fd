(** codeprep/cli/vocab.py 12-23 and codeprep/dirutils.py 17-24: the script that computes the vocabulary of the
    files of a directory.

    The tree is that of M_Dataset.  Not modelled: the parsing of the three arguments, and files that cannot be
    read as text (calc_vocab ends with an error for these). *)
From Verif Require Import M_Base L_Base M_Dataset M_Vocab.

(** [not extension or name.endswith(extension)] (18, 23) *)
Definition extension_fits (ext name : str) : bool := eqb ext [] || ends_with ext name.

(** the root that os.walk gives for the directory with the components [comps] below [path] *)
Definition root_path (path : str) (comps : list str) : str := fold_left path_join comps path.

(** dirutils.walk (17-24): os.walk is called without followlinks; what is not a directory is a file for it,
    links to files as well.  os.walk gives nothing for a file. *)
Definition walk_files (path : str) (t : node) (ext : str) : list str :=
  match t with
  | Dir _ _ _ =>
      flat_map (fun w => map (fun e => path_join (root_path path (fst w)) (fst e))
                           (filter (fun e => negb (is_dir (snd e)) && extension_fits ext (fst e)) (snd w)))
        (walk false [] t)
  | _ => if extension_fits ext path then [path] else []
  end.

(** cli/vocab.py 23: the contents that calc_vocab counts; [content p] is the text of the file at [p] *)
Definition script_corpus (content : str -> str) (path : str) (t : node) (ext : str) : list str :=
  map content (walk_files path t ext).
