(** codeprep/api/corpus.py: preprocess_corpus (225-244) and PreprocessedCorpus (35-69)

    The disk as far as these functions and codeprep/pipeline/stages.py look at it: preprocessed datasets, vocabularies
    and corpus sizes by path.  [files r] are the contents of the preprocessed files of the run [r]; that a run
    leaves all of them is the subject of M_Pipeline, and how several processes count them that of M_Merger.  A dataset
    that is marked as ready stays up to date (for other cases see C52). *)
From Coq Require Import Permutation.
From Verif Require Import M_Base L_Base M_Vocab M_Dataset.

Record disk := {
  d_prep : str -> option (list str);   (** finished preprocessed datasets, None: no directory or an empty one without a marker *)
  d_vocab : str -> option str;         (** vocab and vocabsize files, by directory *)
  d_size : str -> option nat           (** the number in a corpus size file *)
}.
Definition empty_disk : disk := {| d_prep := fun _ => None; d_vocab := fun _ => None; d_size := fun _ => None |}.
Definition put {A} (f : str -> option A) (p : str) (v : A) : str -> option A := fun q => if eqb q p then Some v else f q.

(** PreprocessedCorpus.__init__ (36-40) *)
Record corpus := { c_prep : str; c_vocab : option str; c_size : str }.

Section Corpus.
  (** DEFAULT_PREP_DATASETS_DIR, USER_VOCAB_DIR, DEFAULT_CORPUS_SIZES_DIR *)
  Variables prep_root vocab_root sizes_root : str.
  Variable files : run -> list str.

  Definition contents (d : disk) (p : str) : list str := match d_prep d p with Some l => l | None => [] end.

  Definition corpus_of (r : run) (calc : bool) : corpus :=
    {| c_prep := prep_path prep_root r;
       c_vocab := if calc then Some (vocab_path vocab_root r) else None;
       c_size := corpus_size_path sizes_root prep_root r |}.

  (** stages.run_until_preprocessing (30-39) *)
  Definition run_until_preprocessing (d : disk) (r : run) : disk :=
    match d_prep d (prep_path prep_root r) with
    | Some _ => d
    | None => {| d_prep := put (d_prep d) (prep_path prep_root r) (files r); d_vocab := d_vocab d; d_size := d_size d |}
    end.

  (** preprocess_corpus (225-244) with stages.run_until_vocab (54-70).  [c] is the vocabulary that was counted: the words with
      their counts in any order (C42); without files the program exits (vocab.py 310-312) *)
  Inductive preprocess_corpus (d : disk) (r : run) : bool -> disk -> res corpus -> Prop :=
  | corpus_without_vocab : preprocess_corpus d r false (run_until_preprocessing d r) (Ok (corpus_of r false))
  | corpus_vocab_exists v : d_vocab d (vocab_path vocab_root r) = Some v ->
      preprocess_corpus d r true d (Ok (corpus_of r true))
  | corpus_vocab_counted c : d_vocab d (vocab_path vocab_root r) = None ->
      contents (run_until_preprocessing d r) (prep_path prep_root r) <> [] ->
      Permutation c (get_vocab (contents (run_until_preprocessing d r) (prep_path prep_root r))) ->
      preprocess_corpus d r true
        {| d_prep := d_prep (run_until_preprocessing d r);
           d_vocab := put (d_vocab d) (vocab_path vocab_root r) (write_vocab c);
           d_size := d_size d |} (Ok (corpus_of r true))
  | corpus_no_files : d_vocab d (vocab_path vocab_root r) = None ->
      contents (run_until_preprocessing d r) (prep_path prep_root r) = [] ->
      preprocess_corpus d r true (run_until_preprocessing d r) (Err SystemExit).

  (** get_corpus_size (48-54) *)
  Definition get_corpus_size (d : disk) (c : corpus) : disk * nat :=
    match d_size d (c_size c) with
    | Some n => (d, n)
    | None => let n := calc_corpus_size (contents d (c_prep c)) in
              ({| d_prep := d_prep d; d_vocab := d_vocab d; d_size := put (d_size d) (c_size c) n |}, n)
    end.

  (** load_vocab (42-46) *)
  Definition load_vocab (d : disk) (c : corpus) : res counts :=
    match c_vocab c with
    | None => Err ValueError
    | Some p => match d_vocab d p with Some content => load_vocab_dict content | None => Err FileNotFoundError end
    end.

  (** All sequences of calls for runs of a given kind, with the runs for which a corpus was returned *)
  Inductive session (allowed : run -> Prop) : disk -> list (run * bool) -> Prop :=
  | session_start : session allowed empty_disk []
  | session_call d l r calc d' c : session allowed d l -> allowed r -> preprocess_corpus d r calc d' (Ok c) ->
      session allowed d' ((r, calc) :: l)
  | session_error d l r calc d' e : session allowed d l -> allowed r -> preprocess_corpus d r calc d' (Err e) ->
      session allowed d' l
  | session_size d l r calc : session allowed d l -> In (r, calc) l ->
      session allowed (fst (get_corpus_size d (corpus_of r calc))) l
  (* the cache, where the sizes are, is removed or a part of it (README.md) *)
  | session_cleared d l sizes : session allowed d l -> (forall q, sizes q = d_size d q \/ sizes q = None) ->
      session allowed {| d_prep := d_prep d; d_vocab := d_vocab d; d_size := sizes |} l.
End Corpus.
