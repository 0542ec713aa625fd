(** The learn-bpe command from its arguments (codeprep/cli/impl.py 39-63, 84-96; codeprep/cli/spec.py 155-173) *)
From Verif Require Import M_Base L_Base M_PrepConfig M_Dataset M_Registry M_Learned.

(** What docopt delivers for the usage in spec.py 157; [l_path] is absolute after line 41, see [absolute].  Simplified: [<n-merges>] is a number;
    the path exists; --verbose only changes the log level *)
Record learn_args := {
  l_n : nat; l_path : str; l_ext : option str; l_id : option str;
  l_no_unicode : bool; l_bytes : bool; l_word_end : bool; l_legacy : bool
}.

(** line 41: os.path.abspath, in the working directory [cwd]; exactly two slashes at the start are kept (posixpath.normpath) *)
Definition abspath (cwd : list str) (p : str) : str :=
  (if starts_with [slash; slash] p && negb (starts_with [slash; slash; slash] p) then [slash; slash] else [slash])
  ++ join [slash] (abs_parts cwd p).
Definition absolute (cwd : list str) (a : learn_args) : learn_args :=
  {| l_n := l_n a; l_path := abspath cwd (l_path a); l_ext := l_ext a; l_id := l_id a; l_no_unicode := l_no_unicode a;
     l_bytes := l_bytes a; l_word_end := l_word_end a; l_legacy := l_legacy a |}.

(** create_bpe_config_from_args (84-96) *)
Definition create_bpe_config_from_args (a : learn_args) : bpe_config :=
  {| bc_case := lit "yes";
     bc_word_end := l_word_end a;
     bc_base := if l_legacy a then lit "java" else lit "code";
     bc_unicode := if l_no_unicode a then lit "no" else if l_bytes a then lit "bytes" else lit "yes" |}.

(** normalize_extension_string (dataset.py 327-344) for an optional argument *)
Definition extension_list (e : option str) : option (list str) :=
  match e with Some e => normalize_extension_string e | None => None end.

(** lines 44-50: is the message printed? *)
Definition legacy_refused (a : learn_args) : bool :=
  l_legacy a && match extension_list (l_ext a) with Some (e :: es) => negb (eqb (e :: es) [lit "java"]) | _ => false end.
(** line 51, 53 *)
Definition extensions_of (a : learn_args) : option str := if l_legacy a then Some (lit "java") else l_ext a.

(** the dataset of line 55, modified last at [t] *)
Definition dataset_of (t : stamp) (a : learn_args) : run :=
  {| r_path := l_path a; r_stamp := t; r_exts := extension_list (extensions_of a);
     r_config := combine prep_params (map (fun c => [c]) (base_config (create_bpe_config_from_args a)));
     r_custom := None; r_output := None |}.
Definition command_of (t : stamp) (a : learn_args) : learn_cmd :=
  {| k_dir := dataset_dir_name (dataset_of t a); k_base := basename (l_path a);
     k_conf := create_bpe_config_from_args a; k_id := l_id a; k_n := l_n a |}.

Section LearnCli.
  Variable py_int : str -> option Z.
  Variable maxsize : Z.
  Variable strip : str -> str.
  Variable number_of : str -> str -> option str.
  Variable source : str -> str -> dict str Z * str.

  (** handle_learnbpe (42-63).  [source] is what the stages before write for a directory name and a configuration *)
  Definition handle_learnbpe (t : stamp) (w : world) (a : learn_args) : res unit * world :=
    if legacy_refused a then (Ok tt, w)
    else learn_bpe py_int maxsize strip number_of source w (command_of t a).
  (** handle_learnbpe (39-63) with the path as it is written *)
  Definition handle_learnbpe_at (cwd : list str) (t : stamp) (w : world) (a : learn_args) : res unit * world :=
    handle_learnbpe t w (absolute cwd a).
End LearnCli.
