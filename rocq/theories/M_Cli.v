(** * The preprocessing commands of the command line (codeprep/cli/spec.py 15-149, codeprep/cli/impl.py 66-83) and the
    API functions they stand for (codeprep/api/text.py 43-456, codeprep/api/corpus.py 72-222)

    The two functions that do the work, api/text.py: preprocess and api/corpus.py: preprocess_corpus, are parameters here
    (they are modelled in M_Api, M_Corpus, M_Files): functions of their arguments and of the state of the world.
    docopt is not modelled: [parsed] is what it delivers for a command line that fits the usage text. *)
From Verif Require Import M_Base M_PrepConfig.

(** what a called function does: it returns, raises InvalidBpeCodesIdError (bperegistry.py 32-33; not a subclass of
    any other exception here), or raises something else *)
Inductive outcome (R : Type) := Returned (r : R) | InvalidId | Raised (e : exn).
Arguments Returned {R} r.
Arguments InvalidId {R}.
Arguments Raised {R} e.

(** ** The command line *)
Inductive target :=
| OnPath (path : str) (output : option str)     (* -p <path> [-o <path-out>] *)
| OnText (text : str).                          (* <text> *)

Inductive command :=
| CmdNosplit (full_strings : bool)
| CmdChars
| CmdBasic (split_numbers ronin stem no_case : bool)
| CmdBpe (id : str).                            (* 1k, 5k, 10k or <bpe-codes-id> *)

(** the options common to all four commands *)
Record options := {
  o_target : target;
  o_ext : option str;
  o_no_spaces : bool; o_no_unicode : bool; o_no_com : bool; o_no_str : bool;
  o_max : option str;                           (* -L, as it is written *)
  o_calc_vocab : bool; o_verbose : bool
}.

Definition opt_arg (o : option str) : argval := match o with Some s => AStr s | None => ANone end.

(** entries for the command names, the positional arguments, and the options of the command's usage text.  The names
    1k, 5k, 10k are tried before <bpe-codes-id> (docopt takes the first alternative that matches as much) *)
Definition command_args (c : command) : args :=
  match c with
  | CmdNosplit fs => [(lit "nosplit", ABool true); (lit "--full-strings", ABool fs)]
  | CmdChars => [(lit "chars", ABool true)]
  | CmdBasic n r s nc => [(lit "basic", ABool true); (lit "--split-numbers", ABool n); (lit "--ronin", ABool r);
                          (lit "--stem", ABool s); (lit "--no-case", ABool nc)]
  | CmdBpe id => [(lit "bpe", ABool true); (lit "1k", ABool (eqb id (lit "1k"))); (lit "5k", ABool (eqb id (lit "5k")));
                  (lit "10k", ABool (eqb id (lit "10k")));
                  (lit "<bpe-codes-id>", if mem id (map lit user_predefined_bpe_codes) then ANone else AStr id)]
  end.

Definition parsed (c : command) (o : options) : args :=
  command_args c ++
  [(lit "--path", match o_target o with OnPath p _ => AStr p | OnText _ => ANone end);
   (lit "--output-path", match o_target o with OnPath _ out => opt_arg out | OnText _ => ANone end);
   (lit "<text>", match o_target o with OnPath _ _ => ANone | OnText t => AStr t end);
   (lit "--ext", opt_arg (o_ext o));
   (lit "--no-spaces", ABool (o_no_spaces o)); (lit "--no-unicode", ABool (o_no_unicode o));
   (lit "--no-com", ABool (o_no_com o)); (lit "--no-str", ABool (o_no_str o));
   (lit "--max-str-length", opt_arg (o_max o));
   (lit "--calc-vocab", ABool (o_calc_vocab o)); (lit "--verbose", ABool (o_verbose o))].

(** an argument passed on to a function that takes a string or None *)
Definition passed (v : argval) : option str := match v with AStr s => Some s | _ => None end.

Section Cli.
  Variables (W C : Type).     (* state of the world, results of preprocess_corpus *)
  (** text, configuration, id, extension, return_metadata, force_reinit_bpe_data, append_eof *)
  Variable preprocess : str -> params -> option str -> option str -> bool -> bool -> bool -> W -> outcome (list str) * W.
  (** path, configuration, id, extensions, output path, calc_vocab, suppress_caching *)
  Variable preprocess_corpus :
    option str -> params -> option str -> option str -> option str -> bool -> bool -> W -> outcome C * W.

  (** what the user sees: tokens printed, an error message, a finished command without output, an exception *)
  Inductive effect := Printed (l : list str) | Logged | Finished | Uncaught (e : exn).

  (** handle_splitting (impl.py 66-83) without the log level *)
  Definition handle_splitting (a : args) (w : W) : effect * W :=
    match create_prep_config_from_args a with
    | Err e => (Uncaught e, w)
    | Ok cfg =>
        let id := cli_bpe_codes_id a in
        if is_option_true a "<text>" then
          match passed (get_option a "<text>") with
          | None => (Uncaught TypeError, w)     (* not a string: does not occur *)
          | Some text =>
              match preprocess text cfg id (passed (get_option a "--ext")) false true false w with
              | (Returned l, w') => (Printed l, w')
              | (InvalidId, w') => (Logged, w')
              | (Raised e, w') => (Uncaught e, w')
              end
          end
        else
          match preprocess_corpus (passed (get_option a "--path")) cfg id (passed (get_option a "--ext"))
                  (passed (get_option a "--output-path")) (is_option_true a "--calc-vocab") false w with
          | (Returned _, w') => (Finished, w')
          | (InvalidId, w') => (Logged, w')
          | (Raised e, w') => (Uncaught e, w')
          end
    end.

  (** ** The API *)
  Definition with_config {R} (cfg : res params) (f : params -> W -> outcome R * W) (w : W) : outcome R * W :=
    match cfg with Err e => (Raised e, w) | Ok d => f d w end.

  (** text.nosplit (43-163), chars (166-236), basic (239-354), bpe (357-456); return_metadata and append_eof False,
      force_reinit_bpe_data True, their defaults *)
  Definition text_nosplit text ext sp un com ns fs mx : W -> outcome (list str) * W :=
    with_config (nosplit_config sp un com ns fs mx) (fun d => preprocess text d None ext false true false).
  Definition text_chars text ext sp un com ns mx : W -> outcome (list str) * W :=
    with_config (chars_config sp un com ns mx) (fun d => preprocess text d (Some (lit "0")) ext false true false).
  Definition text_basic text ext (n r s : bool) sp un nc com ns mx : W -> outcome (list str) * W :=
    with_config (basic_config (n || r || s) (r || s) s sp un nc com ns mx)
                (fun d => preprocess text d None ext false true false).
  Definition text_bpe text id ext sp un com ns mx : W -> outcome (list str) * W :=
    with_config (bpe_api_config id sp un com ns mx) (fun d => preprocess text d (Some id) ext false true false).

  (** corpus.nosplit (72-102), chars (105-136), basic (139-180), bpe (183-222); suppress_caching False, its default *)
  Definition corpus_nosplit path exts sp un com ns fs mx out calc : W -> outcome C * W :=
    with_config (nosplit_config sp un com ns fs mx) (fun d => preprocess_corpus (Some path) d None exts out calc false).
  Definition corpus_chars path exts sp un com ns mx out calc : W -> outcome C * W :=
    with_config (chars_config sp un com ns mx) (fun d => preprocess_corpus (Some path) d (Some (lit "0")) exts out calc false).
  Definition corpus_basic path exts (n r s : bool) sp un nc com ns mx out calc : W -> outcome C * W :=
    with_config (basic_config (n || s || r) (r || s) s sp un nc com ns mx)
                (fun d => preprocess_corpus (Some path) d None exts out calc false).
  Definition corpus_bpe path id exts sp un com ns mx out calc : W -> outcome C * W :=
    with_config (bpe_api_config id sp un com ns mx) (fun d => preprocess_corpus (Some path) d (Some id) exts out calc false).
End Cli.
Arguments handle_splitting {W C} _ _ _ _.
Arguments text_nosplit {W}. Arguments text_chars {W}. Arguments text_basic {W}. Arguments text_bpe {W}.
Arguments corpus_nosplit {W C}. Arguments corpus_chars {W C}. Arguments corpus_basic {W C}. Arguments corpus_bpe {W C}.
