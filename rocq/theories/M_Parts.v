(** The parts of the vocabulary of special tokens: their names, saving and gathering
    (codeprep/pipeline/to_repr.py 78-79, codeprep/preprocess/metadata.py 68-71, codeprep/pipeline/vocabloader.py 41-54).
    M_Pipeline keeps these files apart by the number of the output file; here they have their real names. *)
From Verif Require Import M_Base L_Base M_Literal M_Dataset M_Pipeline.

(** one call of save_metadata: the output file (bytes), the text of time.time() (any text without underscores), the tokens *)
Record saving := { sv_dest : str; sv_time : str; sv_tokens : list str }.
(** os.path.join(folder, f'{os.path.basename(dest)}_-_{time.time()}') within the folder; the base name is bytes, so its repr is taken *)
Definition part_name (s : saving) : str := brepr (basename (sv_dest s)) ++ lit "_-_" ++ sv_time s.
(** save_metadata (metadata.py 68-71): the file is replaced if there is one.  Simplified: as one operation *)
Definition save_metadata (folder : dict str str) (s : saving) : dict str str := dset folder (part_name s) (part_file (sv_tokens s)).
(** gather_non_bpe_vocab (vocabloader.py 41-54) when os.listdir delivers [names]: the tokens of the set, in some order and possibly
    repeated; [file] is what is written, the order of a set being anything *)
Definition gather (placeholders : list str) (names : list str) (folder : dict str str) : res (list str) :=
  ls <- mapM (fun n => match dget folder n with Some f => load_vocab_set f | None => Err FileNotFoundError end) names ;;
  Ok (List.concat ls ++ placeholders).
