(** A corpus from its source files to its vocabulary: the stages of M_Pipeline with what M_Files does for one file, and
    the counting of M_Merger on the files that are left. *)
From Verif Require Import M_Base L_Base M_Tokens M_Literal M_Repr M_PrepConfig M_Registry M_Dataset M_Regex M_Parse M_Api
  M_Files M_Pipeline.

(** what a file holds: the source, the pickled tokens (parse_projects.py 41-43), the tokens in one line (to_repr.py 73-76) *)
Inductive file_content := CSource (path bytes : str) | CParsed (l : list token) | CPrep (text : str).

Section Whole.
  Variable parse : str -> option str -> res (list token).
  Variable repr : params -> list token -> globals -> res (list str * meta) * globals.
  Variable dk : disk.
  Variable g : globals.
  Variable config : params.
  Variable id : option str.

  (** preprocess_and_write of to_repr.py (73-75) with the bpe data loaded by run (139-140): the part of preprocess_file after
      parsing *)
  Definition represent (l : list token) : res (list str * meta) :=
    let l' := l ++ [NonProc NpSpecialToken ph_ect] in
    if is_bpe config then
      match id with
      | None | Some [] => Err AssertionError
      | Some i =>
          custom <- (if is_predefined_id i then Ok None else bind (from_id dk i) (fun i => Ok (Some i))) ;;
          match init_bpe_data dk g config custom true with
          | (Err e, _) => Err e
          | (Ok _, g') => fst (repr config l' g')
          end
      end
    else fst (repr config l' g).

  (** the stages as functions on contents.  Simplified: an exception leaves the content as it is; the theorems are about files
      without exceptions (C67) *)
  Definition parse_stage (c : file_content) : file_content :=
    match c with
    | CSource path bytes => match parse_file parse path bytes with Ok l => CParsed l | Err _ => c end
    | _ => c
    end.
  Definition prep_stage (c : file_content) : file_content :=
    match c with
    | CParsed l => match represent l with Ok (out, _) => CPrep (preprocessed_content out) | Err _ => c end
    | _ => c
    end.
End Whole.

(** the sources, numbered *)
Definition sources (files : list (str * str)) (i : nat) : option file_content :=
  option_map (fun pb => CSource (fst pb) (snd pb)) (nth_error files i).

(** the contents of the preprocessed files of a stage, by number *)
Definition prep_files (n : nat) (d : nat -> ofile file_content) : list str :=
  map (fun i => match d i with Full (CPrep text) => text | _ => [] end) (seq 0 n).
