# Formal model of codeprep

The model is written in Coq 8.16.1 (Gallina) and lives in `rocq/theories`. It is a shallow, executable
re-statement of the Python functions of `/repo/codeprep`, one definition per function, each with a comment
citing file and lines. Exceptions are values. Things outside the repository are universally quantified
parameters (never axioms).

Sections: 1 conventions, 2 trusted base, 3 what is modelled, 4 simplifications and premises, 5 how to read the
statuses, 6 properties, 7 findings, 8 seeded bugs. `THEOREMS.md` lists the theorems verbatim, property by property.

## 1. Conventions

* A Python `str` is a list of code points (`str := list N`). A `bytes` is a list of byte values.
* A Python `dict` is an insertion-ordered association list with unique keys (`dict K V`), a `set` is a list
  used up to membership.
* `int` is `Z` (or `nat`, `N` where the code can only produce sizes and indices).
* A call that may raise is a `res A := Ok a | Err exn`.
* Loops are structural recursions or recursions on fuel. Fuel exhaustion is a separate outcome (`OutOfFuel`)
  and is excluded by a theorem.
* Regular expressions are values of a small regex type, run by a backtracking matcher with Perl priorities
  (the semantics of the `regex` module on the operators used). The patterns are transcribed literally.
* Files are maps from paths to contents. A crash is a prefix of the sequence of file system operations, or leaves
  a prefix of the file that is being written.
* Processes are nondeterministic transition systems; a schedule is a list of choices.

Quantified parameters (oracles): unicode character classes and case mapping of Python, the Pygments lexer
(any list of typed tokens), the ronin splitter and the stemmer (any functions), directory listing order,
Python's `int()` on directory names, `str.strip`, the clock, and where one part of the code is studied alone the
functions it calls.

File layout: `M_*.v` models (no proofs), `L_*.v` lemmas, `P_*.v` property theorems with a concrete example
beside each group of theorems and `Print Assumptions` beneath each theorem. Specifications used in statements are in
`S_*.v` or at the top of the property file, and do not use the model's helpers.

## 2. Trusted base

* Coq's kernel (and `vm_compute` for the concrete examples and counterexamples).
* The axioms printed by `Print Assumptions`: for every theorem the answer is `Closed under the global context`,
  that is none. The files import the standard library only. (The gate's inventory of the environment also lists
  seven constants `Coq.ssr.ssrunder.Under_rel.*`; they belong to the standard library's ssreflect plugin files, which some
  library file loads, and no theorem depends on them.)
* The faithfulness of the transcription of the cited lines, of the primitives of Python in `M_Base.v` and `M_Literal.v`,
  and of the regular expression matcher `M_Regex.v`. `M_Lexer.v` also transcribes `Lexer.get_tokens` of Pygments 2.6 (byte order
  mark, line ends, newlines at both ends), which is not in /repo.

## 3. What is modelled

| Python file | modelled in | not modelled |
|---|---|---|
| `tokens/*.py` | `M_Tokens.v` (classes, `Word.from_`, `Number`), `M_Repr.v` (representations), `M_Equal.v` (equality) | `__str__` of single tokens where not used, `__repr__` |
| `noneng.py`, `tokens/noneng.py` | `M_Tokens.v`, `M_Repr.v` | - |
| `preprocess/core.py`, `metadata.py`, `reprconfig.py`, `placeholders.py` | `M_Repr.v`, `M_Tokens.v`, `M_Pipeline.v` (`save_metadata`), `M_Equal.v` (equality) | `__repr__` of the metadata |
| `subtokens.py` | `M_Iter.v` | error messages |
| `parse/subtokens.py`, `parse/matchers.py`, `parse/core.py` | `M_Parse.v`, `M_Regex.v`, `M_Lexer.v` (the choice of the lexer and the text it is given) | the lexers of Pygments themselves |
| `bpepkg/bpe_encode.py`, `merge.py`, `cache.py` | `M_BpeEncode.v`, `M_EncodeDict.v` (`encode` for a vocabulary), `M_Merge.v`, `M_MergeItem.v` (items, slices, equality) | `__main__` of `bpe_encode.py`; `__repr__` and `__hash__`; slices with a step; the progress bar |
| `bpepkg/bpe_learn.py`, `util.py: PriorityCounter` | `M_Learn.v`, `M_LearnStr.v` (words as strings) | memory and time statistics |
| `bpepkg/bpe_config.py` | `M_Registry.v` | - |
| `bpepkg/wild_bpe.py` | `M_Wild.v`: the functions on position lists; `M_WildRun.v`: both indices, `run`, `run_from_text`; `M_WildFile.v`: reading files and directories chunk by chunk with the fallback encoding | performance statistics, logging |
| `pipeline/bperegistry.py` | `M_Registry.v`, `M_Learned.v`, `M_Available.v`, `M_Ids.v` | other messages; `archive_existing_common_bpe_folder`, which nothing calls |
| `pipeline/bpelearner.py` | `M_BpeRun.v`, `M_Learned.v`, `M_LearnTogether.v` | logging |
| `prepconfig.py`, `api/common.py` | `M_PrepConfig.v`, `M_Equal.v` (equality) | - |
| `api/text.py` | `M_PrepConfig.v`, `M_Api.v`, `M_Cli.v` | type checks of arguments by Python |
| `api/corpus.py` | `M_Corpus.v`, `M_SizeFile.v`, `M_Vocab.v`, `M_Cli.v` | - |
| `cli/spec.py`, `cli/impl.py` | `M_PrepConfig.v`, `M_Cli.v`, `M_Learned.v`, `M_LearnCli.v`, `M_Ids.v` | docopt, log levels |
| `cli/vocab.py`, `dirutils.walk` | `M_VocabScript.v` (with `M_Merger.v`) | parsing of the three arguments; files that cannot be read as text |
| `pipeline/dataset.py`, `dirutils.py`, `fileutils.py` | `M_Dataset.v`, `M_Timestamp.v`, `M_FileList.v` (saved lists), `M_Files.v`, `M_Pipeline.v` (markers), `M_Place.v` (all writing operations of a run on one tree), `M_Archive.v` (archiving with the errors of os.rename), `M_LinkCycle.v` (links to directories with targets, cycles of links), `M_Names.v` (limit for the length of names), `M_PathEnc.v` (paths as text and as bytes) | permissions, the limit for the length of whole paths |
| `pipeline/parse_projects.py`, `to_repr.py`, `stages.py`, `vocabloader.py` | `M_Files.v` (one file), `M_Pipeline.v` (many files, kills), `M_Whole.v` (these two together, up to the vocabulary), `M_Together.v` (several commands at the same time, one file), `M_Shared.v` (commands with different options at the same time), `M_Missing.v` (files that disappear), `M_Corpus.v`, `M_Api.v` (`init_bpe_data`), `M_Learned.v` (`vocabloader`), `M_Parts.v` (names of the parts of the vocabulary of special tokens) | progress bars, log files, CPU affinity |
| `pipeline/vocab.py` | `M_Vocab.v` (sequential), `M_Stats.v` (the file vocabsize), `M_Merger.v` (processes, crashes) | time estimates, memory checks |
| `util.py` | `M_Literal.v`, `M_Vocab.v`, `M_Learn.v`, `M_Counter.v` (counters) | the setters of the counters, `getsize` |
| `config.py`, `stemming.py`, `__init__.py`, `__main__.py` | constants where used; `M_Stem.v` | the Porter stemmer of nltk (a parameter) |

Operating system failures other than a kill, running out of memory or disk, and start-up of processes are not modelled.

## 4. Simplifications and premises

* **Learning** (`M_Learn.v`): a word of the vocabulary is the list of its symbols, where the code keeps one string with
  spaces between the symbols, and the pair is searched in the list. `M_LearnStr.v` has the strings and the regular
  expression as in the code; C78 proves that both learn and save the same. `heapq` is selection of the least entry.
* **Bpe encoding**: words without spaces. Where the cache may be changed by look-ups (finding C18) the theorems say so.
* **Position lists** (`M_Wild.v`): a pair is two strings instead of one string with a space.
* **BPE over whole texts** (`M_WildRun.v`): pairs are strings with a space as in the code; a Python set is a list in any order of
  iteration; entries that reading a `defaultdict` creates, and that are overwritten or deleted before use, are left out. In `M_WildFile.v`
  the division of a file into chunks is arbitrary.
* **Vocabulary merging** (`M_Merger.v`): identifiers of partial vocabularies are fresh numbers; the queues deliver in any order;
  files that are read have been written completely unless the crash was during the writing. In C42 to C45 all processes end
  together; C79 adds the loss of single processes.
* **Datasets** (`M_Dataset.v`): paths are bytes (`M_PathEnc.v` says when these are the bytes that were given); links to directories are replaced by what they lead to (`M_LinkCycle.v` makes this tree from a file system with links, also cyclic ones; a target is the path without links of the directory it leads to); no path starting with two slashes.
* **Time stamps** (`M_Timestamp.v`): the clock is an arbitrary function of the modification time; years have two digits, as in the code.
* **Pipeline** (`M_Pipeline.v`): a kill ends all processes at once; `os.rename` is atomic; a run after a kill starts in a later
  second; each run may suppress caching or not; the target of archiving does not exist (what happens if it does: `M_Archive.v`); part files have distinct names.
  Between runs the user may change files, or remove files together with their marker (if the files were changed before, all of them).
* **Commands at the same time** (`M_Together.v`): one output file of preprocessing; all commands write the same content; i-nodes as in POSIX.
* **Commands with different options at the same time** (`M_Shared.v`): a parsed file is written and renamed in one step, names of archived
  directories are never taken, the workers of a command are one process, the list of files is given, caching is not suppressed.
* **Files that disappear** (`M_Missing.v`): the list of files and the name of the dataset are the same for all runs, nobody else touches the results,
  extensions are UTF-8.
* **Saved file lists** (`M_FileList.v`): nothing but the program touches the list, except that the user may remove it with its marker between runs (C106); where two scans write the same list (only in a refutation) each write replaces all of it.
* **Corpora** (`M_Corpus.v`): a finished dataset stays up to date (otherwise C52, C53); interruptions of the size file are in `M_SizeFile.v`.
* **Files** (`M_Files.v`): strict UTF-8 decoder as in Python; worker processes start with the bpe data of the main process.
* **API state** (`M_Api.v`): the parser and `to_repr` are parameters; an object whose attributes are still `None` raises `TypeError`.
* **Commands** (`M_Cli.v`): what docopt delivers for a command line that fits the usage text is given; `InvalidBpeCodesIdError` is
  an outcome of its own. In `M_Registry.v`, `M_Api.v` and `M_Learned.v` it is `ValueError`.
* **Ids given at the same time** (`M_Ids.v`): making a directory, reading an id file, listing the numbers of merges of one directory,
  listing the directories, opening the id file (which empties it) and writing it (at once: it is short) are single steps; what is learned
  is left out, in the end there is one more number of merges.
* **Learning at the same time** (`M_LearnTogether.v`): each command lists the directories, reads the merges, reads the vocabulary,
  learns, looks whether its directory exists, creates it and writes the four files one after the other, in parts of any size; each
  of these is one step, and steps of different commands are interleaved in any order.  Reading one file is one step.  The
  directory of the dataset is given; the vocabulary of the dataset does not change meanwhile.
* **Learned codes** (`M_Learned.v`): what the stages before learning write for a dataset is a function of the directory name of
  the dataset (which contains its time stamp); commands do not run at the same time.
* Division of two ints as float, rounded down, is integer division; text files are decoded as they were encoded.

Premises about external code, where a theorem needs them: `py_text`, `py_ascii`, `simple_case`, `case_valid`, `case_no_lt`,
`spaces_blank` (facts about Python's characters), `lexer_ok`, `lexer_solid`, `lexer_no_marks`, `lines_apart` (what a lexer delivers),
and of the external splitter that it only cuts. Each is defined next to the theorem that uses it, and has an example that meets it.

## 5. Statuses

`proved`: the statement holds for all inputs as stated, the note names assumptions about external code. `partial`: the full
statement is not true of the code; it is proved under conditions that the theorem states, and a theorem named `..._refuted`
gives a concrete input that violates it without the condition. No property is left with an unproved remainder of which it is
not known whether it is true, unless the note says so.

<!-- sections 6 to 8 are written by tools/design.py -->

## 6. Properties

| id | property | status | files | theorems |
|---|---|---|---|---|
| C01 | Metadata boundaries describe the output | proved | `P_ParseRepr.v`, `P_Repr.v` | `C01_text_boundaries`, `C01_metadata_boundaries` |
| C02 | End-of-token marks agree with metadata | partial | `P_Repr.v` | `C02_marks_agree`, `C02_chars_marks_agree`, `C02_refuted`, `C02_any_merges` |
| C03 | BPE and chars output is lossless per token | partial | `P_ParseRepr.v`, `P_Repr.v`, `P_ReprOptions.v` | `C03_text_lossless`, `C03_lossless`, `C03_no_unicode_words`, `C03_no_unicode_refuted` |
| C04 | Preprocessing is compositional over the token stream | proved | `P_Repr.v` | `C04_compositional`, `C04_splits` |
| C05 | Non-processable tokens really occur in the output | proved | `P_Repr.v` | `C05_nonprocessable_occur` |
| C06 | no_spaces removes exactly the newlines and tabs | proved | `P_ReprOptions.v` | `C06_no_spaces`, `C06_spaces_kept` |
| C07 | no_com replaces each comment by one placeholder | proved | `P_ReprOptions.v` | `C07_placeholder`, `C07_contents_irrelevant`, `C07_others_unchanged`, `C07_comments_kept` |
| C08 | no_str and max_str_length hide string contents | proved | `P_ReprStrings.v` | `C08_no_str`, `C08_too_long`, `C08_within_limit`, `C08_others_unchanged` |
| C09 | no_unicode leaves no non-ascii text | partial | `P_ParseRepr.v`, `P_ReprStrings.v`, `P_Signs.v` | `C09_text_no_unicode`, `C09_text_refuted`, `C09_no_unicode`, `C09_refuted`, `C09_every_sign_refuted` |
| C10 | nosplit keeps words verbatim | partial | `P_IdentifierCase.v`, `P_ParseRepr.v` | `C10_recased`, `C10_upper_refuted`, `C10_verbatim`, `C10_ascii`, `C10_refuted` |
| C11 | Identifier splitting is a partition | proved | `P_Parse.v` | `C11_partition`, `C11_subtokens` |
| C12 | Identifier subwords are homogeneous | proved | `P_Parse.v` | `C12_homogeneous` |
| C13 | Text segmentation accounts for every character | proved | `P_Parse.v` | `C13_words`, `C13_string`, `C13_nothing_lost`, `C13_unique` |
| C14 | Number recognition matches the number grammar | proved | `P_Parse.v` | `C14_number_grammar`, `C14_digits` |
| C15 | Non-ascii runs collapse to one placeholder | proved | `P_Parse.v` | `C15_runs_collapse`, `C15_idempotent` |
| C16 | BPE subwords of a word concatenate to the word | proved | `P_Bpe.v` | `C16_subwords_concatenate` |
| C17 | Encoding follows merge priority and stops only when nothing applies | proved | `P_Bpe.v` | `C17_encode_is_textbook_bpe` |
| C18 | Encoding a word is repeatable | partial | `P_Bpe.v` | `C18_uncached_repeatable`, `C18_cached_undisturbed`, `C18_cached_word_refuted` |
| C19 | chars mode splits into single characters | proved | `P_Bpe.v` | `C19_chars_mode` |
| C20 | Escaping is injective | proved | `P_Bpe.v` | `C20_escape_injective`, `C20_char_splitter_accepts` |
| C21 | Merge lists are ordered by priority | partial | `P_Merge.v`, `P_MergeExact.v`, `P_MergeItem.v`, `P_MergeSlice.v` | `C21_merge_list_ordered`, `C21_merge_list_add_total`, `C21_duplicate_pair_refuted`, `C21_exact`, `C21_items`, `C21_equal`, `C21_repeated_refuted`, `C21_slices` |
| C22 | Merges files round-trip | partial | `P_Merge.v`, `P_MergesFile.v` | `C22_merges_file_round_trip`, `C22_no_frequency_refuted`, `C22_space_in_symbol_refuted`, `C22_format`, `C22_exactly`, `C22_one_without_frequency_refuted` |
| C23 | The first n merges are read as a prefix | partial | `P_Merge.v`, `P_MergeExact.v` | `C23_prefix`, `C23_prefix_of_dumped`, `C23_zero_refuted`, `C23_duplicate_line_refuted`, `C23_accepts`, `C23_prefix_exact` |
| C24 | BPE cache files round-trip | proved | `P_Merge.v` | `C24_cache_round_trip` |
| C25 | Literal strings round-trip and are line-safe | proved | `P_Escape.v`, `P_EscapeRead.v`, `P_Merge.v` | `C25_unescaped`, `C25_escapes`, `C25_literal_round_trip`, `C25_literal_line_safe`, `C25_literal_join`, `C25_literal_injective` |
| C26 | Vocabulary files round-trip | partial | `P_Exact.v`, `P_Vocab.v` | `C26_raw`, `C26_round_trip`, `C26_vocab_file`, `C26_unescaped_refuted` |
| C27 | Learning preserves the corpus | partial | `P_Learn.v` | `C27_corpus`, `C27_same_spelling_refuted` |
| C28 | Learning is greedy with exact counts | proved | `P_Learn.v` | `C28_greedy` |
| C29 | Learning never selects a pair twice | partial | `P_Learn.v` | `C29_distinct`, `C29_from_scratch`, `C29_mixed_splits_refuted` |
| C30 | Learned segmentation equals encoding with the learned merges | proved | `P_Learn.v` | `C30_encode` |
| C31 | Fewer merges are a prefix of more merges | partial | `P_Learn.v` | `C31_prefix`, `C31_resume`, `C31_resume_refuted` |
| C32 | Resulting subword vocabulary counts subword occurrences | proved | `P_Learn.v` | `C32_resulting_vocab`, `C32_cache` |
| C33 | The priority counter behaves like a counter map | partial | `P_Queue.v`, `P_QueueInit.v` | `C33_pop`, `C33_initial_zero_refuted`, `C33_first_pop`, `C33_zeros_refuted` |
| C34 | Merge list ids parse back | proved | `P_Registry.v` | `C34_roundtrip`, `C34_exact` |
| C35 | The learned merges directory is chosen correctly | proved | `P_Registry.v` | `C35_max`, `C35_min`, `C35_config` |
| C36 | Newly created bpe ids are unique | partial | `P_Everywhere.v`, `P_Registry.v` | `C36_unfinished_ids_refuted`, `C36_unmatched_refuted`, `C36_new_id`, `C36_unique`, `C36_special_refuted`, `C36_unfinished_refuted`, `C36_strip_refuted` |
| C37 | BPE config suffix round-trips | partial | `P_Everywhere.v`, `P_Registry.v`, `P_Separator.v`, `P_SuffixRefused.v` | `C37_exact`, `C37_suffix`, `C37_directory`, `C37_base_refuted`, `C37_separator_refuted`, `C37_separator_exact`, `C37_refused` |
| C38 | Preprocessing configurations encode uniquely | proved | `P_PrepConfig.v` | `C38_decode_accepts_exactly_valid`, `C38_decode_encode`, `C38_encode_decode`, `C38_encode_injective` |
| C39 | Every documented option combination gives a valid configuration | partial | `P_Api.v`, `P_PrepConfig.v` | `C39_source_used`, `C39_nosplit_valid`, `C39_chars_valid`, `C39_basic_valid`, `C39_bpe_valid`, `C39_bpe_id_0_refuted`, `C39_split_7_refuted`, `C39_cli_nosplit`, `C39_cli_chars`, `C39_cli_basic`, `C39_cli_bpe` |
| C40 | max_str_length is honoured | partial | `P_PrepConfig.v` | `C40_limit_kept`, `C40_no_str`, `C40_other_limits_refuted` |
| C41 | Different runs use different output directories | partial | `P_Collide.v`, `P_Dataset.v`, `P_Everywhere.v`, `P_Place.v` | `C41_shared_refuted`, `C41_parsed`, `C41_prep`, `C41_prep_path`, `C41_parsed_path`, `C41_location_refuted`, `C41_extension_refuted`, `C41_id_refuted`, `C41_vocab_path`, `C41_same_name_refuted`, `C41_slash_refuted` |
| C42 | Parallel vocabulary merging is schedule-independent | partial | `P_Merger.v` | `C42_result`, `C42_written`, `C42_timeout_refuted` |
| C43 | Vocabulary merging never deadlocks | proved | `P_Merger.v` | `C43_no_deadlock`, `C43_finite`, `C43_ends` |
| C44 | Interrupted vocabulary merging loses nothing | partial | `P_Merger.v` | `C44_restart`, `C44_truncated_refuted` |
| C45 | A vocabulary file that exists is complete | partial | `P_Merger.v` | `C45_otherwise`, `C45_refuted` |
| C46 | Work is divided without loss and evenly | proved | `P_Vocab.v` | `C46_groups`, `C46_partition` |
| C47 | Vocabulary counts equal corpus token counts | proved | `P_Vocab.v` | `C47_partial_vocab`, `C47_corpus_size`, `C47_tokens` |
| C48 | Vocabulary limit keeps the most frequent words | partial | `P_Vocab.v` | `C48_limit`, `C48_equal_refuted`, `C48_total` |
| C49 | The vocabulary size file reports the true size | proved | `P_Stats.v`, `P_Vocab.v` | `C49_stats`, `C49_share`, `C49_size`, `C49_lines` |
| C50 | Output files appear atomically | partial | `P_Pipeline.v` | `C50_atomic`, `C50_result`, `C50_no_temporary`, `C50_missing_refuted`, `C50_terminates`, `C50_finish`, `C50_truncated_refuted` |
| C51 | Distinct source files have distinct output files | partial | `P_Dataset.v` | `C51_targets`, `C51_directory_refuted` |
| C52 | Stages run when needed and only then | partial | `P_Pipeline.v` | `C52_second_run`, `C52_once`, `C52_kept`, `C52_outdated`, `C52_marker_refuted`, `C52_vocab_once`, `C52_base_vocab_refuted`, `C52_vocab_refuted` |
| C53 | Changes of the dataset are noticed | partial | `P_Everywhere.v`, `P_Timestamp.v`, `P_Touch.v` | `C53_removed_refuted`, `C53_clock`, `C53_calendar`, `C53_noticed`, `C53_latest`, `C53_stamped`, `C53_directory`, `C53_limit_refuted`, `C53_second_refuted`, `C53_root_refuted`, `C53_link_refuted`, `C53_links_only_refuted`, `C53_operations` |
| C54 | Interrupted BPE learning can be repeated | partial | `P_BpeRun.v` | `C54_runs`, `C54_again`, `C54_refuted`, `C54_smaller` |
| C55 | Extension filters are canonical | partial | `P_Dataset.v`, `P_Everywhere.v` | `C55_canonical`, `C55_selected`, `C55_empty_refuted`, `C55_scan`, `C55_directories`, `C55_exact` |
| C56 | Saved file lists reload unchanged | proved | `P_Dataset.v` | `C56_round_trip` |
| C57 | Full-token iteration partitions the subtokens | partial | `P_Exact.v`, `P_Iter.v` | `C57_exactly`, `C57_invalid_rejected`, `C57_full_tokens`, `C57_unordered_refuted`, `C57_preprocessed` |
| C58 | Subtoken iteration reports the right full token | partial | `P_Exact.v`, `P_Iter.v` | `C58_exactly`, `C58_all_subtokens`, `C58_right_full_token`, `C58_repeated_refuted` |
| C59 | Preprocessing a text does not depend on earlier calls | partial | `P_Api.v`, `P_Everywhere.v` | `C59_history`, `C59_no_bpe`, `C59_loop`, `C59_other_codes_refuted`, `C59_failed_call_refuted`, `C59_ignored_refuted` |
| C60 | Position lists are merged exactly | proved | `P_Wild.v`, `P_WildBoth.v` | `C60_merge`, `C60_both`, `C60_both_overlap_refuted`, `C60_choose`, `C60_self`, `C60_both_exact`, `C60_every_overlap_refuted` |
| C61 | Preprocessing parsed tokens never raises | proved | `P_ParseRepr.v`, `P_ReprOptions.v` | `C61_parser_output`, `C61_text_never_raises`, `C61_never_raises` |
| C62 | The special-token vocabulary is complete after interruptions | partial | `P_LastPart.v`, `P_LearnCli.v`, `P_Parts.v`, `P_Pipeline.v` | `C62_kept`, `C62_every_same_instant_refuted`, `C62_learning`, `C62_parts`, `C62_same_instant_refuted`, `C62_complete`, `C62_exact`, `C62_there`, `C62_killed_refuted`, `C62_truncated_refuted` |
| C63 | A returned corpus has all its files | partial | `P_Corpus.v` | `C63_one_output`, `C63_no_vocab_before`, `C63_second_output_refuted` |
| C64 | Corpus size and vocabulary belong to the corpus | partial | `P_Corpus.v` | `C64_one_output`, `C64_second_output_refuted` |
| C65 | Files are read as the text they hold | proved | `P_Files.v` | `C65_text`, `C65_unique`, `C65_verbatim` |
| C66 | Corpus and text preprocessing agree | partial | `P_Files.v` | `C66_agree`, `C66_no_spaces`, `C66_newline`, `C66_refuted` |
| C67 | No file makes preprocessing fail | partial | `P_Files.v` | `C67_never_fails`, `C67_no_extension`, `C67_extension`, `C67_refuted` |
| C68 | A preprocessed file gives back the tokens | partial | `P_Lines.v` | `C68_read_back`, `C68_import_static_refuted` |
| C69 | Split words are delimited | partial | `P_Collide.v`, `P_Split.v` | `C69_too_long_refuted`, `C69_groups`, `C69_text`, `C69_long_string_refuted` |
| C70 | Splitting with case marks is reversible | proved | `P_Split.v` | `C70_tokens`, `C70_identifier` |
| C71 | No visible character is lost in parsing | partial | `P_KeepCase.v`, `P_Source.v` | `C71_case`, `C71_spelling`, `C71_number_case_refuted` |
| C72 | Parsing keeps lines and indentation | partial | `P_Source.v` | `C72_lines`, `C72_blank_lines_refuted`, `C72_indentation`, `C72_tabs`, `C72_tabs_refuted` |
| C73 | Command line and API agree | partial | `P_Cli.v` | `C73_text`, `C73_corpus`, `C73_empty_text_refuted`, `C73_limit` |
| C74 | append_eof only adds the end mark | proved | `P_Eof.v` | `C74_eof`, `C74_fails` |
| C75 | Learned bpe codes can be used | partial | `P_IdTaken.v`, `P_Learned.v`, `P_Loader.v` | `C75_every_taken_id_refuted`, `C75_every_id_ignored_refuted`, `C75_learn`, `C75_usable`, `C75_id_taken_refuted`, `C75_killed_refuted`, `C75_id_refuted`, `C75_kept_refuted` |
| C76 | Strings and comments of the source are hidden as wholes | partial | `P_StringParts.v`, `P_Strings.v` | `C76_every_part_refuted`, `C76_blank_part_refuted`, `C76_no_str`, `C76_no_com`, `C76_too_long`, `C76_within`, `C76_parts_refuted`, `C76_parts_long_refuted`, `C76_parts_blank_refuted` |
| C77 | Vocabularies can be loaded by the id of the codes | partial | `P_Loader.v`, `P_NoVocab.v` | `C77_vocabularies`, `C77_bpe`, `C77_merges`, `C77_used`, `C77_number_refuted`, `C77_no_vocabulary` |
| C78 | Learning works on words as strings | proved | `P_LearnStr.v` | `C78_word`, `C78_greedy`, `C78_runs`, `C78_line_feed_refuted` |
| C79 | A merging process that ends too early makes no vocabulary wrong | proved | `P_Losses.v` | `C79_never_wrong`, `C79_restart`, `C79_one_lost` |
| C80 | The corpus size is right whoever computes it | partial | `P_SizeFile.v` | `C80_never_wrong`, `C80_one_by_one`, `C80_killed_refuted`, `C80_killed_reachable`, `C80_at_the_same_time_refuted` |
| C81 | Suppressed caching gives the same results and computes them anew | partial | `P_Pipeline.v` | `C81_reused_refuted`, `C81_result` |
| C82 | Commands for the same dataset do not disturb each other | partial | `P_Together.v` | `C82_finally`, `C82_one_by_one`, `C82_error_refuted`, `C82_complete_refuted`, `C82_forever_refuted` |
| C83 | All stages use the same complete list of files | partial | `P_FileList.v` | `C83_complete`, `C83_exact`, `C83_same`, `C83_suppressed_refuted`, `C83_at_the_same_time_refuted` |
| C84 | BPE over a whole text follows the textbook | partial | `P_WildRun.v` | `C84_greedy`, `C84_same`, `C84_whole`, `C84_prefix`, `C84_blank_refuted`, `C84_empty_refuted`, `C84_most_refuted` |
| C85 | Files are read once for BPE over whole texts | partial | `P_WildRun.v` | `C85_text`, `C85_twice`, `C85_refuted`, `C85_file`, `C85_dir`, `C85_empty_refuted` |
| C86 | Every visible character of the source is in the output | partial | `P_Keep.v`, `P_KeepCase.v` | `C86_nosplit`, `C86_bpe`, `C86_basic`, `C86_differ`, `C86_number_case_refuted`, `C86_nosplit_case`, `C86_bpe_case`, `C86_basic_case`, `C86_differ_case` |
| C87 | A corpus that has been preprocessed gives back the tokens of its texts, and its vocabulary counts them | partial | `P_Whole.v` | `C87_files`, `C87_vocabulary` |
| C88 | Stemming changes the parts of words only and keeps their case | proved | `P_Stem.v` | `C88_ronin`, `C88_places`, `C88_case`, `C88_options` |
| C89 | The options of learn-bpe do what they say, or the command changes nothing | partial | `P_LearnCli.v` | `C89_legacy`, `C89_unsupported`, `C89_learns`, `C89_refused_id_refuted` |
| C90 | The ids listed for an unknown id are those that can be used | partial | `P_Available.v` | `C90_available`, `C90_history`, `C90_twice_refuted` |
| C91 | The vocabulary script counts the words of the files with an extension | partial | `P_Suffix.v`, `P_VocabScript.v` | `C91_dot_refuted`, `C91_file_links_refuted`, `C91_directory_links_refuted`, `C91_agree`, `C91_files`, `C91_once`, `C91_single`, `C91_vocab`, `C91_nothing`, `C91_suffix_refuted`, `C91_links_refuted`, `C91_tab_refuted` |
| C92 | The token types in the metadata tell what the tokens are | partial | `P_Suffix.v`, `P_Types.v` | `C92_non_english`, `C92_types`, `C92_non_english_refuted`, `C92_preprocessor_refuted` |
| C93 | The counter of the merging processes is exact under every schedule | partial | `P_Counter.v`, `P_LockHeld.v` | `C93_one_after_the_other`, `C93_progress`, `C93_zero_refuted`, `C93_ends`, `C93_last`, `C93_exactly_one`, `C93_non_atomic`, `C93_merger`, `C93_killed_refuted`, `C93_every_killed_refuted` |
| C94 | The extension decides the language, and everything visible in the source reaches the output | partial | `P_Lexer.v`, `P_LexerCase.v` | `C94_lexer_input`, `C94_language`, `C94_not_guessed_refuted`, `C94_unknown_refuted`, `C94_file_name`, `C94_edges_refuted`, `C94_line_ends`, `C94_spelling`, `C94_lines`, `C94_nosplit`, `C94_bpe`, `C94_basic`, `C94_file`, `C94_nosplit_case`, `C94_bpe_case`, `C94_basic_case`, `C94_file_case` |
| C95 | Preprocessing leaves the dataset as it is | partial | `P_Place.v` | `C95_where`, `C95_leaves`, `C95_inside_refuted` |
| C96 | More merges only join subtokens | partial | `P_Coarse.v` | `C96_word`, `C96_output`, `C96_file`, `C96_learned`, `C96_repeated_line_refuted`, `C96_text`, `C96_characters` |
| C97 | Doing the same again gives the same, apart from ties | partial | `P_Repeat.v` | `C97_vocabulary`, `C97_limit`, `C97_codes`, `C97_ties_refuted` |
| C98 | Placeholders stand for what was hidden, never for text of the source | partial | `P_Forge.v` | `C98_placeholders`, `C98_string_refuted` |
| C99 | A dataset is the same however its path is written | partial | `P_Path.v` | `C99_learn`, `C99_preprocessing`, `C99_slash_refuted`, `C99_dot_refuted` |
| C100 | The way of splitting does not change the tokens that are split | proved | `P_Ways.v` | `C100_types`, `C100_words`, `C100_strings_differ` |
| C101 | no_case changes how the words are written and nothing else | proved | `P_Case.v` | `C101_no_case`, `C101_options` |
| C102 | no_unicode replaces the words with non-ascii characters and nothing else | proved | `P_Unicode.v` | `C102_no_unicode`, `C102_options` |
| C103 | learn-bpe commands at the same time do not spoil each other's results | partial | `P_LearnTogether.v` | `C103_together`, `C103_progress`, `C103_kept`, `C103_ends`, `C103_while_saving_refuted` |
| C104 | With bpe the vocabulary is closed and bounded by the number of merges | proved | `P_Closed.v` | `C104_word`, `C104_output`, `C104_size`, `C104_file` |
| C105 | learn-bpe commands for different datasets at the same time give different ids | partial | `P_Ids.v` | `C105_distinct`, `C105_stays`, `C105_given`, `C105_again`, `C105_progress`, `C105_same_name_refuted`, `C105_same_dataset_refuted` |
| C106 | Removing the cache does not change the results | partial | `P_Removed.v` | `C106_same`, `C106_finish`, `C106_list`, `C106_corpus`, `C106_output_refuted`, `C106_word` |
| C107 | Results that were changed are set aside, not lost, when they are made anew | partial | `P_Archive.v` | `C107_kept`, `C107_others`, `C107_stays`, `C107_possible`, `C107_device_refuted`, `C107_second_refuted` |
| C108 | Commands with different options for the same dataset do not disturb each other | partial | `P_Shared.v` | `C108_right`, `C108_parsed`, `C108_patient`, `C108_ends`, `C108_refuted`, `C108_reading_refuted` |
| C109 | Files that disappear while a command is running are left out and do no harm | partial | `P_Missing.v` | `C109_right`, `C109_all_found`, `C109_comes_back`, `C109_missing_refuted` |
| C110 | Links to directories do not keep a scan from ending, and each file is processed once | partial | `P_LinkCycle.v` | `C110_listed`, `C110_own`, `C110_distinct`, `C110_once`, `C110_inside`, `C110_stamp`, `C110_again_refuted`, `C110_exponential_refuted` |
| C111 | A file that cannot be read does not keep other files from being processed, and does no lasting harm | partial | `P_Missing.v` | `C111_recovers`, `C111_kept`, `C111_others_refuted` |
| C112 | Preprocessing gives files and directories names that the file system takes | partial | `P_Names.v` | `C112_width`, `C112_exact`, `C112_fits`, `C112_usual`, `C112_long_refuted`, `C112_letters_refuted`, `C112_extensions_refuted` |
| C113 | The directory given is the one that is read and written, whatever letters its path has | partial | `P_PathEnc.v` | `C113_round_trip`, `C113_files`, `C113_missing`, `C113_bytes_refuted`, `C113_locale_refuted` |
| C114 | split_numbers splits the numbers, in code, comments and strings, and nothing else | proved | `P_SplitNumbers.v` | `C114_split_numbers`, `C114_options` |
| C115 | full_strings joins the tokens of each string into one and changes nothing else | proved | `P_FullStrings.v` | `C115_full_strings`, `C115_verbatim`, `C115_options` |
| C116 | Encoding a vocabulary encodes each word, keeps the counts and the order, and joins no two words | partial | `P_EncodeDict.v` | `C116_encodes`, `C116_refused`, `C116_word`, `C116_blank_refuted` |
| C117 | Comparing tokens, configurations and metadata with == tells what is the same | proved | `P_Equal.v` | `C117_tokens`, `C117_configs`, `C117_alike`, `C117_metadata` |

## 7. Findings

Where the code does not do what the property says; each is a theorem with a concrete witness.

* `C02_refuted` (End-of-token marks agree with metadata)
* `C03_no_unicode_refuted` (BPE and chars output is lossless per token): MyClassé is split into the characters of Myclass and the placeholder
* `C09_text_refuted` (no_unicode leaves no non-ascii text): the condition on characters outside words is needed: a typographic quote in a comment
* `C09_refuted` (no_unicode leaves no non-ascii text): a single character that is not part of a word is kept also if it is not ascii
* `C09_every_sign_refuted` (no_unicode leaves no non-ascii text): Every character that is not ascii and not a letter, a digit or an underscore, in a name or in a comment that is shown, is in the output as it is, with every configuration, those with no_unicode among them.
* `C10_upper_refuted` (nosplit keeps words verbatim): Every identifier of upper case letters is shown as the upper case of its lower case, so it is changed exactly if that is something else.
* `C10_refuted` (nosplit keeps words verbatim)
* `C18_cached_word_refuted` (Encoding a word is repeatable): a cached word can be encoded only once, with any faithful cache: the lookup strips the end mark from the list inside the cache, so the second lookup fails, unless the word happens to end with @
* `C21_duplicate_pair_refuted` (Merge lists are ordered by priority): the same pair appended twice (no explicit priority) leaves a list whose priorities are not 0..n-1
* `C21_repeated_refuted` (Merge lists are ordered by priority): every pair that is there already is accepted again; it then has the number of merges as its priority, and so has the next new pair, so that the priorities do not say any more which of the two comes first.
* `C22_no_frequency_refuted` (Merges files round-trip): merges without a frequency are written as "None" and cannot be read back
* `C22_space_in_symbol_refuted` (Merges files round-trip): a symbol containing a space is not read back
* `C22_one_without_frequency_refuted` (Merges files round-trip): A single merge without a frequency makes the whole file unreadable, whatever the other merges are.
* `C23_zero_refuted` (The first n merges are read as a prefix): asking for the first 0 merges reads the whole file, whatever is in it
* `C23_duplicate_line_refuted` (The first n merges are read as a prefix): a file whose last line repeats a pair is accepted, and reading a prefix of it is not a prefix of reading it whole
* `C26_unescaped_refuted` (Vocabulary files round-trip): Words that are not escaped, as in a vocabulary computed for files that are not the output of preprocessing, change: a backslash followed by n becomes a newline.
* `C27_same_spelling_refuted` (Learning preserves the corpus): ... and words with equal spelling but different splits overwrite each other
* `C29_mixed_splits_refuted` (Learning never selects a pair twice): For words that were not split by one rule the same pair can come back, and the third merge fails.
* `C31_resume_refuted` (Fewer merges are a prefix of more merges)
* `C33_initial_zero_refuted` (The priority counter behaves like a counter map): What was counted as zero from the start is popped as zero: the condition on [reach_init] matters.
* `C33_zeros_refuted` (The priority counter behaves like a counter map): if no count is positive and one is zero, a key with count zero is popped, although it counts nothing.
* `C36_unfinished_ids_refuted` (Newly created bpe ids are unique): Directories without codes do not count, whatever their ids are: if there are no others, the id is the name.
* `C36_unmatched_refuted` (Newly created bpe ids are unique): If the name, inserted into the pattern, matches none of the ids that are there, the new id ends with 1, whether it is there or not.
* `C36_special_refuted` (Newly created bpe ids are unique): With a special character in the name the third dataset of that name gets the id of the second: the pattern [a+b_([0-9]+)] matches neither [a+b] nor [a+b_1].
* `C36_unfinished_refuted` (Newly created bpe ids are unique): The id of a directory in which no merges are learned yet is given out again.
* `C36_strip_refuted` (Newly created bpe ids are unique): A name that strip changes: the id is new when created, but the same as an existing one when read.
* `C37_base_refuted` (BPE config suffix round-trips): The base vocabulary parameter is lost.
* `C37_separator_refuted` (BPE config suffix round-trips): A separator in the dataset name is taken for the one before the suffix.
* `C39_bpe_id_0_refuted` (Every documented option combination gives a valid configuration): the id 0 is accepted as a predefined bpe id but bpe fails with a KeyError
* `C39_split_7_refuted` (Every documented option combination gives a valid configuration): split value 7 (valid in an encoded configuration) refers to merges that are not packaged
* `C40_other_limits_refuted` (max_str_length is honoured): every other limit is silently replaced: 0 and 1 by 2; negative limits and limits from 62 on by sys.maxsize, i.e. strings are never shortened
* `C41_shared_refuted` (Different runs use different output directories): datasets at any two places share all their directories and files if they have the same last name, the same time stamp and extensions that look the same when put together with underscores.
* `C41_location_refuted` (Different runs use different output directories): The path of the dataset is not part of the names: two datasets with the same name and the same time stamp share all directories.
* `C41_extension_refuted` (Different runs use different output directories): One extension with an underscore looks like two.
* `C41_id_refuted` (Different runs use different output directories): A merge list id with the separator in it
* `C41_same_name_refuted` (Different runs use different output directories): C41: all datasets of the same name and second share their directories, wherever they are
* `C41_slash_refuted` (Different runs use different output directories): A path that ends with a slash has no last component: all datasets given in this way have the same name, whatever they are called.
* `C42_timeout_refuted` (Parallel vocabulary merging is schedule-independent)
* `C44_truncated_refuted` (Interrupted vocabulary merging loses nothing): If an incomplete file is reported with another exception, restarting fails whenever one is there.
* `C45_refuted` (A vocabulary file that exists is complete): For every corpus there is a point at which an interruption leaves an incomplete vocabulary file that no later run completes: nothing is done any more.
* `C48_equal_refuted` (Vocabulary limit keeps the most frequent words): With as many words as the threshold, limiting fails.
* `C50_missing_refuted` (Output files appear atomically): C50: If a file disappeared, the run cannot end regularly: the missing parsed file is an exception.
* `C50_truncated_refuted` (Output files appear atomically): C50: ... and if the truncated token cannot be decoded, no later run ever ends regularly.
* `C51_directory_refuted` (Distinct source files have distinct output files): A directory of the dataset can have the name of an output file: the target of one file is then a directory in the path of the target of another file, and one of the two cannot be written.
* `C52_marker_refuted` (Stages run when needed and only then): C52: Killed between opening and writing the marker, everything is thrown away and done again.
* `C52_base_vocab_refuted` (Stages run when needed and only then): C52: ... but neither stage is executed again when its result is outdated: whatever happens to the preprocessed dataset, the files keep the vocabulary of the first run.
* `C52_vocab_refuted` (Stages run when needed and only then)
* `C53_removed_refuted` (Changes of the dataset are noticed)
* `C53_limit_refuted` (Changes of the dataset are noticed)
* `C53_second_refuted` (Changes of the dataset are noticed): A second modification within the same second, or in the hour that is repeated when summer time ends
* `C53_root_refuted` (Changes of the dataset are noticed): Removing a file of the root directory, when another one was modified later: the time of the root directory itself, which changes then, is not looked at. Likewise a file that is put there with its time preserved
* `C53_link_refuted` (Changes of the dataset are noticed): Files in a directory that is linked are preprocessed, but their times are not looked at
* `C53_links_only_refuted` (Changes of the dataset are noticed): A directory with nothing but links to files cannot be preprocessed at all
* `C54_refuted` (Interrupted BPE learning can be repeated): Killing the process while it saves the results of a run cannot be made good: the directory is incomplete, running the command again fails or reports that the merges are learned already, and no number of later runs with any numbers of merges ever changes the directory.
* `C55_empty_refuted` (Extension filters are canonical): The string with the empty extension alone means no filter; written twice it is a filter.
* `C57_unordered_refuted` (Full-token iteration partitions the subtokens): Boundaries that go back are not rejected and subtokens are repeated.
* `C58_repeated_refuted` (Subtoken iteration reports the right full token): Repeated boundaries (an empty full token) pass validation, but then the reported index is wrong.
* `C59_other_codes_refuted` (Preprocessing a text does not depend on earlier calls): Without reinitialization other codes are ignored (as the documentation says).
* `C59_failed_call_refuted` (Preprocessing a text does not depend on earlier calls): A call that fails while the codes are read leaves an unusable object behind: the following call without reinitialization fails although it would succeed on its own.
* `C59_ignored_refuted` (Preprocessing a text does not depend on earlier calls)
* `C60_both_overlap_refuted` (Position lists are merged exactly): Without the distance between the occurrences the pair in the middle would be missed.
* `C60_every_overlap_refuted` (Position lists are merged exactly): Whenever a third occurrence of the merged pair begins between two others, the pair in the middle of these two is missed.
* `C62_every_same_instant_refuted` (The special-token vocabulary is complete after interruptions): Every token of a file that is saved before another one with the same base name at the same instant is lost, if no other file has it.
* `C62_same_instant_refuted` (The special-token vocabulary is complete after interruptions): Several processes save at the same time. Two files with the same base name, saved at the same instant, have the same part: the tokens of the first are lost.
* `C62_killed_refuted` (The special-token vocabulary is complete after interruptions): C62: Killed while the non-bpe vocabulary was being written, the rest of it is never written.
* `C62_truncated_refuted` (The special-token vocabulary is complete after interruptions)
* `C63_second_output_refuted` (A returned corpus has all its files): C63: The vocabulary does not depend on the output directory. If it was calculated for one output directory, a call for the same dataset and options with another output directory returns a corpus without any file.
* `C64_second_output_refuted` (Corpus size and vocabulary belong to the corpus): C64: ... and asking that corpus for its size makes the program report 0 tokens for the complete one as well.
* `C66_refuted` (Corpus and text preprocessing agree): So a file and its text have different results, whenever the parser ends the text with a newline - which the lexer always does.
* `C67_refuted` (No file makes preprocessing fail): A file name with an extension that is not UTF-8 stops everything.
* `C68_import_static_refuted` (A preprocessed file gives back the tokens)
* `C69_too_long_refuted` (Split words are delimited): every string over the limit, for all configurations that split words without bpe, becomes one token that the marks show as two.
* `C69_long_string_refuted` (Split words are delimited): A string over the limit becomes two tokens without marks.
* `C71_number_case_refuted` (No visible character is lost in parsing): Numbers lose their case.
* `C72_blank_lines_refuted` (Parsing keeps lines and indentation): White space with line ends that the lexer delivers as one token loses them all.
* `C72_tabs_refuted` (Parsing keeps lines and indentation)
* `C73_empty_text_refuted` (Command line and API agree): An empty text counts as no text: the command preprocesses a corpus, at the path None.
* `C75_every_taken_id_refuted` (Learned bpe codes can be used): --id is not checked. Whatever was learned before, and whatever comes of this command: if the id given belongs to another dataset, then afterwards it leads to that one or to this one, depending on which the file system lists first
* `C75_every_id_ignored_refuted` (Learned bpe codes can be used): --id has no effect on a dataset that has an id already, even if it has it only from a command that was killed or refused; every command leaves it as it is, and the id given is not one of this dataset
* `C75_id_taken_refuted` (Learned bpe codes can be used): an id given with --id is not checked. If it is that of another dataset, it depends on the order of the directories whose merges are used
* `C75_killed_refuted` (Learned bpe codes can be used): the id of a dataset whose learning was interrupted is not known to be taken. Another dataset of the same name gets the same one, and when learning is done again there are two
* `C75_id_refuted` (Learned bpe codes can be used): after the same, an id asked for with --id is ignored although nothing was learned
* `C75_kept_refuted` (Learned bpe codes can be used): the words that are not to be split are put into the cache as they are, but looked up with the mark of the end of a word. So they are split by the merges like all others: exactly the words that are listed with the mark are kept
* `C76_every_part_refuted` (Strings and comments of the source are hidden as wholes): With no_str a string that the lexer delivers in several parts is shown as just as many placeholders, whatever is in it: one string and several strings beside each other cannot be told apart.
* `C76_blank_part_refuted` (Strings and comments of the source are hidden as wholes): A part of a string that is white space is treated as white space between tokens is, whatever the options.
* `C76_parts_refuted` (Strings and comments of the source are hidden as wholes): one string is shown as three placeholders ...
* `C76_parts_long_refuted` (Strings and comments of the source are hidden as wholes): ... a string that is longer than the limit is shown in full, as no part of it is ...
* `C76_parts_blank_refuted` (Strings and comments of the source are hidden as wholes): ... and white space inside a string is not hidden by no_str.
* `C77_number_refuted` (Vocabularies can be loaded by the id of the codes): codes can be used with any number of merges up to the one learned, but there is a vocabulary only for the one learned
* `C78_line_feed_refuted` (Learning works on words as strings): The word must not end with a line feed: [$] matches before it too, so the symbol "b" followed by a line feed is taken for "b". (The words the program learns from end with "@".
* `C80_killed_refuted` (The corpus size is right whoever computes it)
* `C80_at_the_same_time_refuted` (The corpus size is right whoever computes it): Two calls at the same time, without any kill: one of them can fail because the other one has just opened the file
* `C81_reused_refuted` (Suppressed caching gives the same results and computes them anew): C81: After a run that ended regularly no run computes anything for any file, whether caching is suppressed in any of them or not.
* `C82_error_refuted` (Commands for the same dataset do not disturb each other): Two commands, none of them killed: one of them ends with an error.
* `C82_complete_refuted` (Commands for the same dataset do not disturb each other): Two commands, none of them killed: when the first one has ended without an error, the output file can be empty.
* `C82_forever_refuted` (Commands for the same dataset do not disturb each other): ... and when the other one is killed then, it stays empty whatever commands follow.
* `C83_suppressed_refuted` (All stages use the same complete list of files): With caching suppressed the stages of one command scan anew: a later stage can get a file that no stage before it has seen.
* `C83_at_the_same_time_refuted` (All stages use the same complete list of files): Two commands at the same time: one has scanned and marked the list, the other one opens it for its own scan in the same second; the next stage of the first one gets no files.
* `C84_blank_refuted` (BPE over a whole text follows the textbook): With a blank in the text it fails: run_from_text does not escape blanks as the readers of files do. Or the merges are wrong.
* `C84_empty_refuted` (BPE over a whole text follows the textbook): An empty text is an error.
* `C84_most_refuted` (BPE over a whole text follows the textbook): The pair chosen need not be the one merged most often: overlapping occurrences are counted for the choice.
* `C85_refuted` (Files are read once for BPE over whole texts): So a file need not be read as the text it holds. A short file in ISO-8859-1 with an accented letter at its end suffices.
* `C85_empty_refuted` (Files are read once for BPE over whole texts): An empty file, or a directory without Python files, is an error.
* `C86_number_case_refuted` (Every visible character of the source is in the output): Upper case in numbers is lost: two different texts give the same tokens.
* `C89_refused_id_refuted` (The options of learn-bpe do what they say, or the command changes nothing): a refused command leaves its id behind. If the user then leaves out the option that was refused and asks for the same id, merges are learned, but it depends on the order of the directories whether they are found
* `C90_twice_refuted` (The ids listed for an unknown id are those that can be used): if --id was given twice, the message lists numbers of merges that cannot be used
* `C91_dot_refuted` (The vocabulary script counts the words of the files with an extension): Every file whose name ends with the extension, but without a dot before it, is counted by the script and not preprocessed.
* `C91_file_links_refuted` (The vocabulary script counts the words of the files with an extension): Every link to a file with a fitting name is counted by the script and not preprocessed.
* `C91_directory_links_refuted` (The vocabulary script counts the words of the files with an extension): Every file with the extension that is reached only over a link to a directory is preprocessed and not counted.
* `C91_suffix_refuted` (The vocabulary script counts the words of the files with an extension): The extension is only the end of the name: a file called happy has the extension py here, although it has not elsewhere (has_one_of_extensions wants the dot).
* `C91_links_refuted` (The vocabulary script counts the words of the files with an extension): Links to files are read here and left out elsewhere; a file that is also linked to is counted twice. With linked directories it is the other way round: they are left out here and read elsewhere.
* `C91_tab_refuted` (The vocabulary script counts the words of the files with an extension): The files are raw files: a word with a tab gives a vocabulary that cannot be loaded.
* `C92_non_english_refuted` (The token types in the metadata tell what the tokens are): The type of a word with other letters than those of English depends on the options: with no_unicode it is that of a non-English word if words are not split with BPE, otherwise it is that of a word.
* `C92_preprocessor_refuted` (The token types in the metadata tell what the tokens are): All that the lexer puts below Comment and not into Comment.Single is a multi-line comment, also the directives of the preprocessor; no_com hides them.
* `C93_zero_refuted` (The counter of the merging processes is exact under every schedule): Not true of every use: if the counter is decremented at zero, the process waits with the lock in its hands, so the increment of another process, which would end the waiting, never happens.
* `C93_killed_refuted` (The counter of the merging processes is exact under every schedule): Not true if a process is killed in a call: the others wait for ever.
* `C93_every_killed_refuted` (The counter of the merging processes is exact under every schedule): whenever a process is killed in a call, whatever the programs and the schedule were and are, no call of any process ever ends again: the results stay those from before, those of the killed process included, and the calls that were to come are still to come.
* `C94_not_guessed_refuted` (The extension decides the language, and everything visible in the source reaches the output): the documentation of the API says that without extension Pygments tries to guess the language. Nothing is guessed: what the guess would be makes no difference, and Python text can be parsed as Java.
* `C94_unknown_refuted` (The extension decides the language, and everything visible in the source reaches the output): An extension that is no name of a lexer: the text decides, and there may be an error.
* `C94_edges_refuted` (The extension decides the language, and everything visible in the source reaches the output): Newlines at the beginning and at the end of a text make no difference: they are lost.
* `C95_inside_refuted` (Preprocessing leaves the dataset as it is): By default the results go to the working directory. If this is the dataset, preprocessing changes the dataset: the time in its name is another one afterwards, so that nothing is found again, and without an extension the results are themselves read the next time.
* `C96_repeated_line_refuted` (More merges only join subtokens): A file whose last line repeats a pair is accepted when it is read whole; the pair then comes last, and a word is not cut where it was cut before.
* `C97_ties_refuted` (Doing the same again gives the same, apart from ties)
* `C98_string_refuted` (Placeholders stand for what was hidden, never for text of the source): A piece of a string (as between the braces of an f-string) that reads [<comment>] looks like a comment if strings are kept whole.
* `C99_slash_refuted` (A dataset is the same however its path is written): A slash at the end makes it another dataset for preprocessing: nothing that has been done is found.
* `C99_dot_refuted` (A dataset is the same however its path is written): The working directory given as a dot has no name at all: two datasets that were modified last in the same second share their results.
* `C103_while_saving_refuted` (learn-bpe commands at the same time do not spoil each other's results): a command that looks for earlier results while another one is saving reads the beginning of the list of merges and then the complete vocabulary: its own list lacks merges, and no textbook learning gives it. Both commands end regularly
* `C105_same_name_refuted` (learn-bpe commands for different datasets at the same time give different ids): Not so for datasets of the same name: if each lists the ids before the other has saved merges, they get the same id.
* `C105_same_dataset_refuted` (learn-bpe commands for different datasets at the same time give different ids): Two commands for one dataset: one that looked for the id before the other wrote it replaces it, after the other has ended and its id is in use.
* `C106_output_refuted` (Removing the cache does not change the results)
* `C107_device_refuted` (Results that were changed are set aside, not lost, when they are made anew): Not so if the results are on another device than the cache: then every call fails, and the results stay outdated, however often it is tried.
* `C107_second_refuted` (Results that were changed are set aside, not lost, when they are made anew): And not if something of the same name and last changed in the same second was archived before.
* `C108_refuted` (Commands with different options for the same dataset do not disturb each other): Without waiting commands can fail: the second one finds the marker of the first one before the time is written into it, takes the parsed dataset for outdated and moves it away; the first one then fails.
* `C108_reading_refuted` (Commands with different options for the same dataset do not disturb each other): And with three commands a command that is preprocessing can fail: the second one, which had found a file missing, writes it again after the first one has set its marker, and the third one moves the parsed dataset away.
* `C109_missing_refuted` (Files that disappear while a command is running are left out and do no harm): If one file of the list is missing when it is to be parsed, the run fails after the parsing although the message says that the file is ignored, and no later run ever ends, also if the file is there again.
* `C110_again_refuted` (Links to directories do not keep a scan from ending, and each file is processed once): A dataset with one file and one link to itself has 41 names in its list on a system that follows 40 links: the file is parsed, preprocessed and written 41 times.
* `C110_exponential_refuted` (Links to directories do not keep a scan from ending, and each file is processed once): With two such links the number of names is exponential in the number of links that the system follows: more than two million million names for 40 links, so that the command does not end in any useful time.
* `C111_others_refuted` (A file that cannot be read does not keep other files from being processed, and does no lasting harm): While there is one file that cannot be read, no run ends, and there is no output for any of the other files.
* `C112_long_refuted` (Preprocessing gives files and directories names that the file system takes): One file with a name of 244 to 255 bytes anywhere in the dataset: the run cannot get past writing its result.
* `C112_letters_refuted` (Preprocessing gives files and directories names that the file system takes): Where special tokens are collected (learning bpe codes), much shorter names are too long, when they have letters that are not ASCII: with times of 18 characters, from 57 bytes on.
* `C112_extensions_refuted` (Preprocessing gives files and directories names that the file system takes): The extensions asked for are part of the name of each directory: with many of them nothing can be preprocessed, whatever the dataset.
* `C113_bytes_refuted` (The directory given is the one that is read and written, whatever letters its path has): A directory with a name that is not UTF-8, which file systems allow, cannot be preprocessed; nor can results go there.
* `C113_locale_refuted` (The directory given is the one that is read and written, whatever letters its path has): In a locale with ISO-8859-1, for every path that is not ASCII other bytes are looked up: usually nothing is there, and the dataset is taken to be empty without an error; results go to another directory than the one that is made and reported.
* `C116_blank_refuted` (Encoding a vocabulary encodes each word, keeps the counts and the order, and joins no two words): A blank in a word is lost, with every merge list: the parts give the word without its blanks, not the word.

## 8. Seeded bugs

The model was edited like a realistic bug in a copy, one edit at a time, and rebuilt (`seeded/LOG.jsonl`, one line per attempt). A failure means that a proof script no longer goes through. This is weaker than a proof that the statement is false of the edited model: a script can also break because the edit changes the shape of a term. A theorem fails directly if its own script breaks. It is listed as failed through a lemma if its proof, or a proof it uses, names a lemma whose script broke; these lists are computed from the text: a run leaves the broken lemma out or stops there, and the theorem is not tried with another proof. 1059 edits so far: 549 broke the script of a theorem, 444 that of a lemma that theorems use; 8 are not valid attempts, as Coq does not accept the edited model; 58 broke no theorem (the notes in the log say why, where there is a reason). After 33 the theorems were tightened or new ones added: par14 (C76_within, C76_too_long), rep28 (C69_groups), par6 (C14_digits), par15 (C71_spelling), k16 (C107_device_refuted), k17 (C107_possible), s11 (C25_escapes), par10 (C72_indentation), par16 (C71_spelling), api7 (C39_source_used), lrn15 (C75_learn, C75_usable), cor5 (C64_one_output), ag9 (C77_no_vocabulary), ag32 (C37_refused), ah5 (C37_refused), ah10 (C53_operations), ah11 (C53_operations), ah33 (C93_every_killed_refuted), d1 (C88_ronin, C88_places), d9 (C62_learning), d25 (C92_types), d31 (C25_unescaped), d39 (C22_format), d117 (C99_learn, C99_preprocessing), d118 (C55_directories), d124 (C41_parsed_path, C53_directory), e18 (C91_single), e31 (C89_learns), f11 (C99_learn), f11 (C99_learn), f26 (C53_calendar), f27 (C53_stamped, C53_latest), g45 (C50_no_temporary).
