(** Preprocessing configurations: codeprep/prepconfig.py, codeprep/api/common.py, the configuration part of
    codeprep/api/text.py and codeprep/cli/impl.py, and the choice of merges in codeprep/pipeline/to_repr.py. *)
From Verif Require Import M_Base L_Base M_Tokens M_Repr M_Literal M_Merge M_BpeEncode.

(** ** PrepConfig (prepconfig.py) *)

(** PrepParam (26-32), in the order of the enumeration *)
Inductive prep_param := EN_ONLY | COM | STR | SPLIT | TABS_NEWLINES | CASE.
Definition prep_params : list prep_param := [EN_ONLY; COM; STR; SPLIT; TABS_NEWLINES; CASE].
Definition prep_param_eqb (a b : prep_param) : bool :=
  match a, b with
  | EN_ONLY, EN_ONLY | COM, COM | STR, STR | SPLIT, SPLIT
  | TABS_NEWLINES, TABS_NEWLINES | CASE, CASE => true
  | _, _ => false
  end.
#[global, refine] Instance Eqb_prep_param : Eqb prep_param := {| eqb := prep_param_eqb |}.
Proof. intros x y; destruct x, y; constructor; congruence. Defined.

(** the characters of an ascii literal, as one-character strings *)
Definition chars_of (s : string) : list str := map (fun c => [c]) (lit s).

(** get_possible_str_values (35-37): ranges 48-57, 65-90, 97-122 *)
Definition nrange (a b : N) : list N := map (fun i => (a + N.of_nat i)%N) (seq 0 (N.to_nat (b - a))).
Definition possible_str_values : list str :=
  map (fun c => [c]) (nrange 48 58 ++ nrange 65 91 ++ nrange 97 123).

(** sys.maxsize on a 64-bit platform *)
Definition maxsize : Z := 9223372036854775807%Z.

(** list.index (ValueError if absent) *)
Fixpoint index_of (x : str) (l : list str) : option nat :=
  match l with
  | [] => None
  | y :: t => if eqb x y then Some 0 else option_map S (index_of x t)
  end.

(** get_max_str_length (40-47) *)
Definition get_max_str_length (ch : str) : res (option Z) :=
  match index_of ch possible_str_values with
  | None => Err ValueError
  | Some O => Ok None
  | Some (S O) => Ok (Some maxsize)
  | Some n => Ok (Some (Z.of_nat n))
  end.

(** possible_param_values (51-58) *)
Definition possible_param_values (p : prep_param) : list str :=
  match p with
  | EN_ONLY => chars_of "uU"
  | COM => chars_of "0c"
  | STR => possible_str_values
  | SPLIT => chars_of "0F123s456789"
  | TABS_NEWLINES => chars_of "s0"
  | CASE => chars_of "ul"
  end.

Definition params := dict prep_param str.

(** __check_invariants (103-115) *)
Fixpoint check_values (d : params) (l : list prep_param) : res unit :=
  match l with
  | [] => Ok tt
  | p :: t =>
      match dget d p with
      | None => Err KeyError
      | Some v => if mem v (possible_param_values p) then check_values d t else Err ValueError
      end
  end.

Definition param (d : params) (p : prep_param) : str := match dget d p with Some v => v | None => [] end.
Definition param_in (d : params) (p : prep_param) (vals : string) : bool := mem (param d p) (chars_of vals).

Definition check_invariants (d : params) : res unit :=
  if negb (Nat.eqb (length d) 6) then Err ValueError
  else
    _ <- check_values d prep_params ;;
    if param_in d CASE "l" && param_in d SPLIT "0F" then Err ValueError
    else if param_in d CASE "l" && param_in d SPLIT "45679" then Err ValueError
    else Ok tt.

(** __init__ (117-120) *)
Definition mk_prep_config (d : params) : res params := _ <- check_invariants d ;; Ok d.

(** from_encoded_string (93-100) *)
Definition from_encoded_string (s : str) : res params :=
  if negb (Nat.eqb (length s) 6) then Err ValueError
  else mk_prep_config (combine prep_params (map (fun c => [c]) s)).

(** __str__ (122-126) *)
Definition config_str (d : params) : str := List.concat (map (param d) prep_params).

(** is_bpe (193-200) *)
Definition is_bpe (d : params) : bool := param_in d SPLIT "456789".

(** get_types_to_be_repr (166-180) *)
Definition get_types_to_be_repr (d : params) : list cls :=
  (if param_in d SPLIT "123456789s" then [CSplitContainer; CWord] else []) ++
  (if param_in d SPLIT "23456789s" then [CNumber] else []) ++
  (if param_in d COM "0" then [COneLineComment; CMultilineComment] else []) ++
  (if param_in d STR "0" then [CStringLiteral] else []) ++
  (if param_in d EN_ONLY "U" then [CNonEng] else []) ++
  (if param_in d TABS_NEWLINES "0" then [CNewLine; CTab] else []).

(** the ronin splitter (package spiral) and the stemmer (nltk) are parameters *)
Record splitters := { ronin_split : str -> list str; stem : str -> str }.

(** calling get_bpe_subwords with bpe_data that may be None (attribute access on None) *)
Definition bpe_call (b : option bpe_data) (s : str) : res (list str) :=
  match b with Some d => get_bpe_subwords d s | None => Err AttributeError end.

(** get_number_splitter (137-146) *)
Definition get_number_splitter (d : params) (b : option bpe_data) : res (str -> res (list str)) :=
  if param_in d SPLIT "0F1" then Ok (fun s => Ok [s])
  else if param_in d SPLIT "23s" then Ok (fun s => Ok (map (fun c => [c]) s))
  else if param_in d SPLIT "456789" then Ok (bpe_call b)
  else Err ValueError.

(** get_word_splitter (148-164) *)
Definition get_word_splitter (o : splitters) (d : params) (b : option bpe_data)
  : res (option (str -> res (list str))) :=
  if param_in d SPLIT "456789" then Ok (Some (bpe_call b))
  else if param_in d SPLIT "12" then Ok (Some (fun s => Ok [s]))
  else if param_in d SPLIT "3" then Ok (Some (fun s => Ok (ronin_split o s)))
  else if param_in d SPLIT "s" then Ok (Some (fun s => Ok (map (stem o) (ronin_split o s))))
  else if param_in d SPLIT "0F" then Ok None
  else Err ValueError.

(** get_repr_config (182-189) *)
Definition get_repr_config (o : splitters) (d : params) (b : option bpe_data) : res repr_config :=
  let b' := if is_bpe d then b else None in
  ns <- get_number_splitter d b' ;;
  ws <- get_word_splitter o d b' ;;
  ml <- get_max_str_length (param d STR) ;;
  Ok {| types_to_be_repr := get_types_to_be_repr d;
        bpe := match b' with Some _ => true | None => false end;
        should_lowercase := param_in d CASE "l";
        number_splitter := ns;
        word_splitter := ws;
        full_strings := param_in d SPLIT "F";
        max_str_length := ml |}.

(** to_repr (pipeline/to_repr.py 47-53); [b] is the bpe data in force (the argument or the global) *)
Definition to_repr (E : pycase) (o : splitters) (d : params) (b : option bpe_data) (l : list token)
  : res (list str * meta) :=
  rc <- get_repr_config o d b ;;
  to_repr_cfg E rc (is_bpe d) l.

(** is_base_bpe_config (203-208) *)
Definition is_base_bpe_config (d : params) : bool :=
  param_in d COM "0" && param_in d STR "E" && param_in d SPLIT "F"
  && param_in d TABS_NEWLINES "s" && param_in d CASE "u".

(** ** api/common.py *)
Inductive split_type := StNosplit | StChars | StBasic | StBpe.

(** create_split_value (11-36); other split types raise AssertionError and do not occur in the API *)
Definition create_split_value (t : split_type) (bpe_codes_id : option str)
           (full_strings split_numbers ronin stem : bool) : str :=
  match t with
  | StNosplit => if full_strings then lit "F" else lit "0"
  | StChars => lit "8"
  | StBasic => if stem then lit "s" else if ronin then lit "3" else if split_numbers then lit "2" else lit "1"
  | StBpe =>
      match bpe_codes_id with
      | Some id => if eqb id (lit "1k") then lit "5" else if eqb id (lit "5k") then lit "4"
                   else if eqb id (lit "10k") then lit "6" else lit "9"
      | None => lit "9"
      end
  end.

(** create_str_value (39-47) *)
Definition create_str_value (no_str : bool) (max_str_len : Z) : str :=
  if no_str then lit "0"
  else if (0 <=? max_str_len)%Z && (max_str_len <? 2)%Z then lit "2"
  else if (2 <=? max_str_len)%Z && (max_str_len <? Z.of_nat (length possible_str_values))%Z
       then nth (Z.to_nat max_str_len) possible_str_values []
       else lit "1".

(** create_prep_config (50-62) *)
Definition create_prep_config (t : split_type) (bpe_codes_id : option str)
           (no_spaces no_unicode no_case no_com no_str full_strings : bool) (max_str_length : Z)
           (split_numbers ronin stem : bool) : res params :=
  mk_prep_config
    [(EN_ONLY, if no_unicode then lit "U" else lit "u");
     (COM, if no_com then lit "0" else lit "c");
     (STR, create_str_value no_str max_str_length);
     (SPLIT, create_split_value t bpe_codes_id full_strings split_numbers ronin stem);
     (TABS_NEWLINES, if no_spaces then lit "0" else lit "s");
     (CASE, if no_case then lit "l" else lit "u")].

(** the configurations of nosplit, chars, basic and bpe (api/text.py 161-162, 233-234, 351-353, 453-454) *)
Definition nosplit_config (no_spaces no_unicode no_com no_str full_strings : bool) (mx : Z) :=
  create_prep_config StNosplit None no_spaces no_unicode false no_com no_str full_strings mx false false false.
Definition chars_config (no_spaces no_unicode no_com no_str : bool) (mx : Z) :=
  create_prep_config StChars None no_spaces no_unicode false no_com no_str false mx false false false.
Definition basic_config (split_numbers ronin stem no_spaces no_unicode no_case no_com no_str : bool) (mx : Z) :=
  create_prep_config StBasic None no_spaces no_unicode no_case no_com no_str false mx split_numbers ronin stem.
Definition bpe_api_config (id : str) (no_spaces no_unicode no_com no_str : bool) (mx : Z) :=
  create_prep_config StBpe (Some id) no_spaces no_unicode false no_com no_str false mx false false false.

(** ** Command line (cli/impl.py 31-36, 99-133) *)
Inductive argval := ANone | ABool (b : bool) | AStr (s : str).
Definition truthy (v : argval) : bool :=
  match v with ANone => false | ABool b => b | AStr s => match s with [] => false | _ => true end end.
Definition args := dict str argval.
Definition get_option (a : args) (o : string) : argval := match dget a (lit o) with Some v => v | None => ANone end.
Definition is_option_true (a : args) (o : string) : bool := truthy (get_option a o).

Definition user_predefined_bpe_codes : list string := ["1k"; "5k"; "10k"]%string.

(** get_predefined_bpe_codes_id (112-117) *)
Fixpoint first_true (a : args) (l : list string) : option str :=
  match l with [] => None | o :: t => if is_option_true a o then Some (lit o) else first_true a t end.
Definition get_predefined_bpe_codes_id (a : args) : option str :=
  match first_true a user_predefined_bpe_codes with
  | Some s => Some s
  | None => if is_option_true a "chars" then Some (lit "0") else None
  end.

(** create_split_value_from_args (120-133) *)
Definition create_split_value_from_args (a : args) : res str :=
  if is_option_true a "nosplit" then
    Ok (create_split_value StNosplit None (is_option_true a "--full-strings") false false false)
  else if is_option_true a "chars" then Ok (create_split_value StChars None false false false false)
  else if is_option_true a "basic" then
    Ok (create_split_value StBasic None false (is_option_true a "--split-numbers")
          (is_option_true a "--ronin") (is_option_true a "--stem"))
  else if is_option_true a "bpe" then
    Ok (create_split_value StBpe (get_predefined_bpe_codes_id a) false false false false)
  else Err AssertionError.

(** create_prep_config_from_args (99-109) *)
Definition create_prep_config_from_args (a : args) : res params :=
  mx <- match get_option a "--max-str-length" with
        | ANone => Ok maxsize
        | AStr s => parse_int s
        | ABool b => Ok (if b then 1%Z else 0%Z)
        end ;;
  sv <- create_split_value_from_args a ;;
  mk_prep_config
    [(EN_ONLY, if is_option_true a "--no-unicode" then lit "U" else lit "u");
     (COM, if is_option_true a "--no-com" then lit "0" else lit "c");
     (STR, create_str_value (is_option_true a "--no-str") mx);
     (SPLIT, sv);
     (TABS_NEWLINES, if is_option_true a "--no-spaces" then lit "0" else lit "s");
     (CASE, if is_option_true a "--no-case" then lit "l" else lit "u")].

(** the bpe codes id used by handle_splitting (69) *)
Definition cli_bpe_codes_id (a : args) : option str :=
  match get_option a "<bpe-codes-id>" with
  | AStr (c :: t) => Some (c :: t)
  | _ => get_predefined_bpe_codes_id a
  end.

(** ** Which merges are used (api/text.py 32-35, bperegistry.py 28-29 and 71-88, to_repr.py 84-115) *)
Definition predefined_bpe_codes : list str := map lit ["1k"; "5k"; "10k"; "0"]%string.
Definition is_predefined_id (id : str) : bool := mem id predefined_bpe_codes.

Definition bpe_n_merges_dict : dict str str :=
  [(lit "4", lit "5k"); (lit "5", lit "1k"); (lit "6", lit "10k"); (lit "7", lit "20k"); (lit "8", lit "0")].

(** what init_bpe_data reads: the merges of a custom id, or a directory of the package data *)
Inductive bpe_source := SrcCustom (id : str) | SrcPackaged (case_dir dir : str).

Definition bpe_source_for (d : params) (bpe_codes_id : option str) : res (option bpe_source) :=
  if is_bpe d then
    match bpe_codes_id with
    | None | Some [] => Err AssertionError
    | Some id =>
        if is_predefined_id id then
          match dget bpe_n_merges_dict (param d SPLIT) with
          | None => Err KeyError
          | Some dir => Ok (Some (SrcPackaged (if param_in d CASE "u" then lit "case" else lit "nocase") dir))
          end
        else Ok (Some (SrcCustom id))
    end
  else Ok None.

(** the directories below codeprep/data/bpe that contain merges.txt (package data) *)
Definition packaged : list (str * str) :=
  map (fun d => (lit "case", lit d)) ["0"; "10k"; "1k"; "2k"; "5k"]%string
  ++ [(lit "nocase", lit "0")].
