# Writes /verif/properties.jsonl. Append new properties at the end; ids are positional.
import json
P = []
def p(title, statement, quantifier, why, anchors):
    P.append(dict(id="C%02d" % (len(P)+1), title=title, statement=statement, quantifier=quantifier,
                  why_tests_cant=why, anchors=anchors))

# ---- representation and metadata -------------------------------------------------------------
p("Metadata boundaries describe the output",
  "Whatever text is preprocessed with whatever valid configuration, the returned metadata satisfies: word_boundaries starts with 0, is strictly increasing, ends with the number of output tokens, and there is exactly one token type per full token (len(token_types) = len(word_boundaries) - 1).",
  "every list of parsed tokens of every kind and nesting, every preprocessing configuration, every word splitter, every merge list",
  "The boundaries are accumulated by repeated in-place updates over nested containers; tests pin a few token lists while the claim is about every nesting and configuration.",
  ["codeprep/preprocess/metadata.py: PreprocessingMetadata.update", "codeprep/preprocess/core.py: to_repr_list, torepr", "codeprep/tokens/containers.py", "codeprep/tokens/rootclasses.py: wrap_in_metadata_for_full_word"])
p("End-of-token marks agree with metadata",
  "In bpe and chars output a subtoken carries the </t> mark exactly when the metadata says that a full token ends there, so check_metadata_validity accepts every preprocessed text and the subtokens can be regrouped into tokens from the text alone.",
  "every parsed token list, every merge list, every bpe or chars configuration",
  "It fails only for particular subtokens whose own text ends in the mark; no finite test set covers all merge lists and words.",
  ["codeprep/pipeline/to_repr.py: insert_and_word_tokens, to_repr", "codeprep/preprocess/metadata.py: check_metadata_validity", "codeprep/subtokens.py: is_terminal_subtoken"])
p("BPE and chars output is lossless per token",
  "In bpe and chars modes, joining the subtokens of one full token of the output gives exactly the text of that token followed by </t>: splitting into subwords never drops, duplicates or reorders characters.",
  "every parsed token list whose words contain no space, every merge list, every bpe or chars configuration",
  "Depends on every interaction of escaping, merging and unescaping; tests check some words with one merge list.",
  ["codeprep/pipeline/to_repr.py: to_repr", "codeprep/bpepkg/bpe_encode.py: get_bpe_subwords", "codeprep/subtokens.py: FullTokenIterator"])
p("Preprocessing is compositional over the token stream",
  "Preprocessing the concatenation of two parsed token lists gives the concatenation of the two outputs, with the boundaries of the second shifted by the length of the first, the types concatenated and the non-processable tokens united: no token's representation depends on its neighbours.",
  "every pair of parsed token lists, every configuration",
  "A statement about all splits of all token streams.",
  ["codeprep/preprocess/core.py: to_repr_list", "codeprep/preprocess/metadata.py: PreprocessingMetadata.update", "codeprep/pipeline/to_repr.py: insert_and_word_tokens"])
p("Non-processable tokens really occur in the output",
  "Every token reported in metadata.nonprocessable_tokens occurs verbatim among the output tokens (before end-of-token marks are added), so excluding the reported set from BPE learning never excludes a token that the corpus does not contain.",
  "every parsed token list, every configuration",
  "Placeholders, truncated strings and dropped whitespace remove tokens from the output; the reported set must shrink with them in every combination.",
  ["codeprep/preprocess/metadata.py: PreprocessingMetadata, save_metadata", "codeprep/tokens/word.py: NonProcessibleToken", "codeprep/tokens/containers.py: StringLiteral"])
p("no_spaces removes exactly the newlines and tabs",
  "With no_spaces=True newline and tab tokens contribute nothing to the output, at top level and inside comments and split strings, and the rest of the output is what it would be if those tokens had not been there; without the option each of them contributes exactly one token.",
  "every parsed token list, every configuration with and without no_spaces",
  "Quantifies over all positions and nestings of whitespace.",
  ["codeprep/tokens/whitespace.py: NewLine, Tab", "codeprep/prepconfig.py: get_types_to_be_repr"])
p("no_com replaces each comment by one placeholder",
  "With no_com=True each comment contributes exactly the single token <comment> whatever it contains, so the output is independent of comment contents; with comments kept each one-line comment ends with <EOL>.",
  "every comment contents, every surrounding token list, every configuration",
  "Independence of contents is a statement about all pairs of inputs.",
  ["codeprep/tokens/containers.py: Comment, OneLineComment, MultilineComment"])
p("no_str and max_str_length hide string contents",
  "With no_str=True a string literal contributes exactly <str-literal>; with max_str_length a literal longer than the limit (quotes included) is replaced by an empty string literal that does not depend on its contents, and a literal within the limit is kept.",
  "every string literal, every length, every limit, every configuration",
  "Boundary behaviour over all lengths and limits.",
  ["codeprep/tokens/containers.py: StringLiteral", "codeprep/prepconfig.py: get_max_str_length"])
p("no_unicode leaves no non-ascii text",
  "With no_unicode=True the output contains no non-ascii character except the documented placeholders (<non-en>, the sequence placeholder, and the non-breaking space inside full strings).",
  "every parsed token list, every configuration with no_unicode",
  "Quantifies over all unicode input.",
  ["codeprep/tokens/noneng.py: NonEng", "codeprep/noneng.py: replace_non_ascii_seqs", "codeprep/tokens/word.py: NonCodeChar"])
p("nosplit keeps words verbatim",
  "nosplit outputs each identifier exactly as written in the source text.",
  "every identifier",
  "Identifiers are stored split and case-normalised and rebuilt on output; the round trip must hold for every unicode identifier.",
  ["codeprep/tokens/word.py: Word.from_, Word.non_preprocessed_repr", "codeprep/tokens/containers.py: SplitContainer.non_preprocessed_repr", "codeprep/parse/subtokens.py: split_identifier"])
# ---- parsing -----------------------------------------------------------------------------------
p("Identifier splitting is a partition",
  "Splitting an identifier into subwords yields non-empty parts whose concatenation is the identifier.",
  "every identifier, every assignment of unicode character classes",
  "Regex alternation with lookahead and backtracking; a partition claim is about all strings.",
  ["codeprep/parse/subtokens.py: split_identifier"])
p("Identifier subwords are homogeneous",
  "Every part of a split identifier is an underscore, a run of ascii digits, a run of lowercase letters optionally preceded by one uppercase letter, a run of uppercase letters not followed by a lowercase letter, or a single other character.",
  "every identifier",
  "Backtracking in the uppercase alternative makes the exact shape a property of all strings.",
  ["codeprep/parse/subtokens.py: split_identifier"])
p("Text segmentation accounts for every character",
  "Splitting the text of a lexer token into words keeps every non-space character exactly once and in order; a run of n spaces contributes floor(n/4) tabs in words and one space token of length n inside string literals.",
  "every text, every assignment of unicode character classes",
  "finditer silently skips unmatched characters; completeness is about all strings.",
  ["codeprep/parse/subtokens.py: split_into_words, split_string, to_parsed_token"])
p("Number recognition matches the number grammar",
  "A word is classified as a number exactly when it is a hexadecimal, binary, integer or decimal floating literal of the documented grammar.",
  "every word",
  "Equivalence of a seven-way regular expression with a grammar over all strings.",
  ["codeprep/parse/subtokens.py: is_number"])
p("Non-ascii runs collapse to one placeholder",
  "Replacing non-ascii sequences keeps all ascii characters in order and turns each maximal run of non-ascii characters into exactly one placeholder; applying it again changes nothing.",
  "every word, every single-character placeholder",
  "Run detection with a flag across loop iterations, over all strings.",
  ["codeprep/noneng.py: replace_non_ascii_seqs"])
# ---- bpe encode ---------------------------------------------------------------------------------
p("BPE subwords of a word concatenate to the word",
  "get_bpe_subwords(word) returns a non-empty list of subwords whose concatenation is the word, including words that contain the escape character @, and never raises.",
  "every word without spaces, every merge list, no cached entry",
  "All interactions of escape doubling, terminal marker and merging.",
  ["codeprep/bpepkg/bpe_encode.py: escape, to_char_list, encode, unescape, get_bpe_subwords"])
p("Encoding follows merge priority and stops only when nothing applies",
  "encode_word terminates and its result is the one of the textbook procedure: repeatedly take the best-priority pair that occurs, merge all its occurrences from left to right, until no adjacent pair is in the merge list.",
  "every word, every merge list built by appending merges",
  "Refinement of an index-based loop to a specification for every word and merge list, including overlapping occurrences.",
  ["codeprep/bpepkg/bpe_encode.py: encode, encode_word"])
p("Encoding a word is repeatable",
  "Encoding the same word again with the same bpe data gives the same subwords, whatever was encoded in between and whether or not the word is in the merges cache.",
  "every history of encoded words, every cache, every merge list",
  "A property of call histories; the cache is shared mutable state.",
  ["codeprep/bpepkg/bpe_encode.py: get_bpe_subwords, unescape"])
p("chars mode splits into single characters",
  "With an empty merge list every word is split into exactly its characters, in order, followed by one empty subword to which the mark of the end of a word is attached.",
  "every non-empty word without spaces",
  "All words, including ones with escape characters.",
  ["codeprep/bpepkg/bpe_encode.py: encode", "codeprep/api/text.py: chars"])
p("Escaping is injective",
  "Two different words never have the same escaped form, and the character splitter accepts every escaped word.",
  "every pair of words",
  "Injectivity is a statement about all pairs.",
  ["codeprep/bpepkg/bpe_encode.py: escape, to_char_list"])
# ---- merge lists and files --------------------------------------------------------------------
p("Merge lists are ordered by priority",
  "However a merge list was built by successful appends and additions, iterating it yields merges with priorities 0..n-1 in order, and get_priority agrees with the position.",
  "every sequence of append and + operations",
  "Invariant over operation histories; appending an existing pair overwrites in place.",
  ["codeprep/bpepkg/merge.py: MergeList.append, __add__, __iter__, get_priority"])
p("Merges files round-trip",
  "Reading a dumped merge list gives back an equal merge list, for arbitrary symbols including control and non-ascii characters.",
  "every merge list with recorded frequencies and space-free symbols",
  "All unicode strings in the symbols.",
  ["codeprep/bpepkg/merge.py: dump_merges, read_merges, Merge.parse_file_entry", "codeprep/util.py: to_literal_str, to_non_literal_str"])
p("The first n merges are read as a prefix",
  "read_merges(file, n) is the first n merges of read_merges(file).",
  "every file, every n",
  "All files and all n including 0 and n beyond the end.",
  ["codeprep/bpepkg/merge.py: read_merges"])
p("BPE cache files round-trip",
  "Reading a dumped bpe cache gives back the same cache.",
  "every cache with space-free non-empty subword lists",
  "All unicode strings.",
  ["codeprep/bpepkg/cache.py: read_bpe_cache, dump_bpe_cache"])
p("Literal strings round-trip and are line-safe",
  "to_non_literal_str(to_literal_str(s)) = s for every string; the literal form is printable ascii without tab, newline or other control characters, keeps spaces, and literalising a space-joined list equals space-joining the literals.",
  "every unicode string",
  "All code points in all contexts, including backslashes followed by escape letters.",
  ["codeprep/util.py: to_literal_str, to_non_literal_str"])
p("Vocabulary files round-trip",
  "Loading a dumped vocabulary gives back the same words with the same counts.",
  "every vocabulary",
  "All words.",
  ["codeprep/pipeline/vocab.py: _dump_vocab_dict, _load_vocab_dict, _load_vocab_set"])
# ---- bpe learning -----------------------------------------------------------------------------
p("Learning preserves the corpus",
  "Learning merges never changes what the vocabulary spells: after any number of merges the words (segments joined) and their frequencies are those of the input vocabulary.",
  "every vocabulary, every number of merges",
  "The loop rewrites strings by regular-expression search; preservation is about all vocabularies.",
  ["codeprep/bpepkg/bpe_learn.py: merge_vocab, do_merges"])
p("Learning is greedy with exact counts",
  "Each learned merge is a most frequent adjacent pair of the current segmentation, the recorded frequency is its exact number of adjacent occurrences, and all its non-overlapping occurrences are merged from left to right.",
  "every vocabulary with positive frequencies, every number of merges",
  "Counts are maintained incrementally through positive and negative updates; exactness must hold at every step of every run.",
  ["codeprep/bpepkg/bpe_learn.py: get_stats, merge_vocab, do_merges", "codeprep/util.py: PriorityCounter"])
p("Learning never selects a pair twice",
  "do_merges returns at most the requested number of merges, all pairs distinct, with priorities 0..k-1, and never fails; it returns fewer merges only if no adjacent pair is left.",
  "every vocabulary, every number of merges",
  "A repeated pair would make MergeList.append raise; excluding it needs an argument over whole runs.",
  ["codeprep/bpepkg/bpe_learn.py: do_merges", "codeprep/bpepkg/merge.py: MergeList.append"])
p("Learned segmentation equals encoding with the learned merges",
  "For every training word, encoding it with the learned merges gives exactly the segmentation reached during learning (so the merges cache and the merges file agree).",
  "every vocabulary, every number of merges, every word of the vocabulary",
  "Relates two different algorithms on all vocabularies.",
  ["codeprep/bpepkg/bpe_learn.py: do_merges, create_bpe_cache", "codeprep/bpepkg/bpe_encode.py: encode"])
p("Fewer merges are a prefix of more merges",
  "Learning n merges gives a prefix of what learning m >= n merges on the same vocabulary gives; resuming from saved results for n merges up to m gives the same merges as learning m merges at once.",
  "every vocabulary, every n <= m",
  "All vocabularies including those with frequency ties.",
  ["codeprep/bpepkg/bpe_learn.py: do_merges", "codeprep/pipeline/bpelearner.py: run, prepare_vocabs"])
p("Resulting subword vocabulary counts subword occurrences",
  "The resulting vocabulary maps each subword to the sum over words of frequency times number of its occurrences in the segmentation, and contains nothing else.",
  "every segmented vocabulary",
  "All vocabularies.",
  ["codeprep/bpepkg/bpe_learn.py: create_resulting_vocab, separate_vocabs, create_bpe_cache"])
p("The priority counter behaves like a counter map",
  "After any sequence of add and pop operations, pop returns a pair with the maximal current count (the net sum of its additions since it was last popped), the earliest updated one on ties, never a pair whose count is zero or that was removed, and raises KeyError exactly when no pair with non-zero count is left.",
  "every initial dictionary, every sequence of operations",
  "A refinement over operation histories with lazy deletion.",
  ["codeprep/util.py: PriorityCounter"])
# ---- registry and configuration -----------------------------------------------------------------
p("Merge list ids parse back",
  "An id written as name-n parses back to exactly (name, n), whatever dashes or digits the name contains; strings without a positive number after the last dash are rejected.",
  "every name without newline, every n >= 1",
  "Greedy regular expression over all names.",
  ["codeprep/pipeline/bperegistry.py: parse_merge_list_id"])
p("The learned merges directory is chosen correctly",
  "get_max_merges returns the largest learned number of merges not above the limit and get_min_merges the smallest not below it, or None if there is none, ignoring directories whose names are not numbers.",
  "every set of directory names in every listing order, every limit",
  "All listing orders and names.",
  ["codeprep/pipeline/bperegistry.py: _get_extreme_n_merges, get_min_merges, get_max_merges"])
p("Newly created bpe ids are unique",
  "An automatically created id is different from every id already in use.",
  "every dataset name, every set of existing ids",
  "The name is interpolated into a regular expression; names with special characters must work too.",
  ["codeprep/pipeline/bperegistry.py: create_new_id_from, _get_all_custom_bpe_codes_and_max_merges"])
p("BPE config suffix round-trips",
  "A supported bpe configuration is recovered from its directory suffix (case, word end and unicode parameters).",
  "every valid bpe configuration",
  "Substring tests on the suffix may interfere with each other.",
  ["codeprep/bpepkg/bpe_config.py: to_suffix, from_suffix", "codeprep/pipeline/bperegistry.py: get_base_vocab_dir"])
p("Preprocessing configurations encode uniquely",
  "A configuration's string form decodes to the same configuration, two different configurations have different string forms, and strings that are not valid configurations are rejected.",
  "every configuration and every string",
  "Quantifies over all strings.",
  ["codeprep/prepconfig.py: PrepConfig.from_encoded_string, __str__, __check_invariants"])
p("Every documented option combination gives a valid configuration",
  "Each api function builds a valid configuration for every combination of its options, the command line builds the same configuration for the corresponding flags, and for every accepted bpe codes id the preprocessing finds merges to use.",
  "every combination of options, every max_str_length, every bpe codes id",
  "All combinations including unbounded lengths and ids.",
  ["codeprep/api/common.py: create_prep_config, create_split_value, create_str_value", "codeprep/cli/impl.py: create_prep_config_from_args", "codeprep/pipeline/to_repr.py: init_bpe_data"])
p("max_str_length is honoured",
  "The limit in force after encoding max_str_length into a configuration is max_str_length itself.",
  "every max_str_length",
  "The value is squeezed into one of 62 characters.",
  ["codeprep/api/common.py: create_str_value", "codeprep/prepconfig.py: get_max_str_length, get_possible_str_values"])
p("Different runs use different output directories",
  "Two corpus preprocessing runs share an output or cache directory only if they have the same dataset, the same configuration and the same bpe codes.",
  "every pair of runs",
  "Injectivity of a naming scheme over all names.",
  ["codeprep/pipeline/dataset.py: get_dataset_dir_name, _get_prep_suffix, _get_path_to_prep_dataset, _get_path_to_parsed_dataset"])
# ---- vocabulary ---------------------------------------------------------------------------------
p("Parallel vocabulary merging is schedule-independent",
  "However the merger processes are scheduled, the vocabulary written at the end counts each word exactly as often as it occurs in all files together, and exactly one process writes it.",
  "every number of processes, every set of partial vocabularies and chunks, every interleaving",
  "All schedules.",
  ["codeprep/pipeline/vocab.py: VocabMerger.run, _finish_merges, create_chunk_queue, mapify_tasks, calc_vocab", "codeprep/util.py: merge_dicts_, AtomicInteger"])
p("Vocabulary merging never deadlocks",
  "In every reachable state of the merging processes in which the work is not finished, some process can make a step, and every run is finite.",
  "every number of processes, every set of partial vocabularies, every interleaving",
  "Absence of deadlock over all schedules.",
  ["codeprep/pipeline/vocab.py: VocabMerger.run, create_chunk_queue"])
p("Interrupted vocabulary merging loses nothing",
  "If merging of partial vocabularies is interrupted at any point and restarted (possibly interrupted again), the partial vocabularies loaded at restart together count each word exactly as often as it occurs in all files.",
  "every state of the partial vocabulary directory, every crash point, any number of crashes",
  "All crash points and histories.",
  ["codeprep/pipeline/vocab.py: VocabMerger._merge, finish_file_dumping, load_partial_vocabs, create_partial_vocabs"])
p("A vocabulary file that exists is complete",
  "If the vocabulary computation is interrupted at any point, a later run either finds a complete vocabulary file or computes it again.",
  "every crash point",
  "Crash points inside file writes.",
  ["codeprep/pipeline/vocab.py: calc_vocab, _finish_merges, write_vocab, write_stats", "codeprep/pipeline/stages.py: run_until_vocab"])
p("Work is divided without loss and evenly",
  "groupify distributes every element to exactly one group, keeps relative order inside groups, leaves no group empty, and group sizes differ by at most one.",
  "every list, every number of chunks",
  "All lists and sizes.",
  ["codeprep/util.py: groupify, create_chunk_generator"])
p("Vocabulary counts equal corpus token counts",
  "The vocabulary of a preprocessed corpus maps each token to its number of occurrences in the preprocessed files, and the counts add up to the reported corpus size.",
  "every corpus of preprocessed token lists",
  "All corpora and tokens, including tokens with special characters.",
  ["codeprep/pipeline/vocab.py: get_vocab", "codeprep/api/corpus.py: PreprocessedCorpus.get_corpus_size, load_vocab", "codeprep/pipeline/to_repr.py: preprocess_and_write"])
p("Vocabulary limit keeps the most frequent words",
  "Limiting a vocabulary to a threshold keeps at most that many words, every kept word is strictly more frequent than every dropped one, and counts are unchanged.",
  "every vocabulary, every threshold",
  "Ties and boundary thresholds over all vocabularies.",
  ["codeprep/pipeline/vocab.py: PartialVocab.limit_max_vocab"])
p("The vocabulary size file reports the true size",
  "The first line of the vocabulary size file is the number of distinct tokens of the whole corpus, whatever the order in which partial vocabularies were merged. Then there is one line for each number of partial vocabularies that were merged into one on the way, in increasing order, with the share of the corpus and the mean size and mean number of non-English words of the vocabularies merged of so many; the last one has the share 1.0000 and the numbers of the whole corpus.",
  "every merge tree of partial vocabularies",
  "All merge orders.",
  ["codeprep/pipeline/vocab.py: PartialVocab.add_vocab, write_stats, __generate_stats"])
# ---- pipeline -------------------------------------------------------------------------------------
p("Output files appear atomically",
  "If parsing or preprocessing of a corpus is interrupted at any point, every output file that exists is complete; running again completes the missing ones and gives the same result as an uninterrupted run. Half-written files are gone when a run has ended regularly.",
  "every set of files, every crash point, any number of interrupted runs",
  "All crash points and histories of interrupted runs.",
  ["codeprep/pipeline/parse_projects.py: preprocess_and_write", "codeprep/pipeline/to_repr.py: preprocess_and_write"])
p("Distinct source files have distinct output files",
  "Two different files of a dataset are never written to the same output path, and the temporary file of one is never the output file of another.",
  "every pair of relative paths",
  "Injectivity over all names.",
  ["codeprep/pipeline/dataset.py: SubDataset.get_new_file_name", "codeprep/pipeline/dataset.py: NOT_FINISHED_EXTENSION"])
p("Stages run when needed and only then",
  "A preprocessing stage is executed when its result is missing or outdated and skipped when it is up to date; running the pipeline twice without changes does the work once.",
  "every state of markers and directories, every history of runs and modifications",
  "Histories of runs.",
  ["codeprep/pipeline/stages.py: run_parsing, run_until_preprocessing, run_until_vocab", "codeprep/pipeline/dataset.py: is_path_ready, is_path_outdated, set_path_ready, archive_path"])
p("Changes of the dataset are noticed",
  "If the contents of a dataset changed since it was preprocessed, preprocessing it again uses the new contents. The name of the output shows the date and time of the last modification.",
  "every modification of a dataset",
  "Depends on how many files are inspected and the timestamp granularity.",
  ["codeprep/dirutils.py: get_dir_last_modification, get_timestamp", "codeprep/pipeline/dataset.py: get_dataset_dir_name"])
p("Interrupted BPE learning can be repeated",
  "If saving learned merges is interrupted at any point, running learn-bpe again succeeds and produces complete results.",
  "every crash point",
  "Crash points.",
  ["codeprep/pipeline/bpelearner.py: run, save_results", "codeprep/pipeline/bperegistry.py: get_max_merges"])
p("Extension filters are canonical",
  "The set of selected files and the cache directory name depend only on the set of requested extensions, not on their order or repetition; a file is selected exactly when its name ends with a dot and one of them.",
  "every extension string, every file name",
  "All strings.",
  ["codeprep/pipeline/dataset.py: normalize_extension_string", "codeprep/fileutils.py: has_one_of_extensions"])
p("Saved file lists reload unchanged",
  "Reading a saved file list yields exactly the file names that were found when scanning, as bytes, for arbitrary byte names.",
  "every list of byte strings",
  "All byte values in names.",
  ["codeprep/dirutils.py: walk_and_save", "codeprep/pipeline/dataset.py: get_all_files"])
# ---- iterators ----------------------------------------------------------------------------------------
p("Full-token iteration partitions the subtokens",
  "Iterating full tokens over valid boundaries yields one value per full token, in order, whose subtokens concatenate to the whole subtoken list; invalid boundaries are rejected before iteration.",
  "every subtoken list and boundary list, every format function",
  "All lists.",
  ["codeprep/subtokens.py: FullTokenIterator, TokenIterator.validate_word_boundaries"])
p("Subtoken iteration reports the right full token",
  "Iterating subtokens yields every subtoken once, in order, with the index of the full token whose boundaries contain it, and never fails on boundaries that passed validation.",
  "every subtoken list and boundary list",
  "All boundary lists, including repeated boundaries.",
  ["codeprep/subtokens.py: SubtokenIterator"])
p("Preprocessing a text does not depend on earlier calls",
  "With default options the result of preprocessing a text depends only on the text and the options, not on texts or bpe codes used before in the same process.",
  "every history of api calls",
  "Histories over global state.",
  ["codeprep/api/text.py: preprocess", "codeprep/pipeline/to_repr.py: init_bpe_data, get_global_bpe_data_if_available"])
p("Position lists are merged exactly",
  "When a pair is merged in the location index, the positions of the new neighbouring pair are exactly the positions where the two old pairs were adjacent, and these are exactly the positions removed from the neighbour's list.",
  "every pair of strictly increasing position lists and every shift",
  "All position lists.",
  ["codeprep/bpepkg/wild_bpe.py: merge_lists, self_merge, merge_lists_both, choose_positions_to_merge"])
p("Preprocessing parsed tokens never raises",
  "For every configuration that can be created, preprocessing any list of parsed tokens returns a result; no exception is raised, also in subword modes.",
  "every valid configuration, token list and bpe data",
  "All combinations of options and tokens.",
  ["codeprep/pipeline/to_repr.py: to_repr", "codeprep/prepconfig.py: get_types_to_be_repr, get_repr_config", "codeprep/preprocess/reprconfig.py", "codeprep/tokens/containers.py"])

p("The special-token vocabulary is complete after interruptions",
  "After preprocessing with the base bpe configuration ended, possibly after interrupted runs, the vocabulary of tokens that must not be split contains exactly the special tokens of all files.",
  "every set of files, every crash point, any number of interrupted runs",
  "All crash points and histories of interrupted runs.",
  ["codeprep/pipeline/vocabloader.py: gather_non_bpe_vocab", "codeprep/preprocess/metadata.py: save_metadata", "codeprep/pipeline/to_repr.py: preprocess_and_write, run"])

p("A returned corpus has all its files",
  "After preprocess_corpus returned, the directory of the returned corpus contains the preprocessed form of every file of the dataset, whatever was preprocessed before, with or without vocabulary and for every output path.",
  "every sequence of calls of preprocess_corpus and get_corpus_size, all datasets, options and output paths",
  "Histories of calls with shared caches on disk.",
  ["codeprep/api/corpus.py: preprocess_corpus", "codeprep/pipeline/stages.py: run_until_vocab, run_until_preprocessing", "codeprep/pipeline/dataset.py: vocab_path, _get_path_to_prep_dataset"])
p("Corpus size and vocabulary belong to the corpus",
  "get_corpus_size of a returned corpus is the number of its tokens and load_vocab gives every token with its number of occurrences, or raises ValueError if no vocabulary was asked for, whatever other corpora were preprocessed or asked for their size before.",
  "every sequence of calls, all datasets, options and output paths",
  "Histories of calls with shared caches on disk.",
  ["codeprep/api/corpus.py: PreprocessedCorpus.get_corpus_size, PreprocessedCorpus.load_vocab, _calc_corpus_size", "codeprep/pipeline/dataset.py: path_to_prep_corpus_size_file, path_to_vocab_file"])

p("Files are read as the text they hold",
  "The text that is preprocessed for a file is the text the file holds, with all line ends changed to newlines and without a last newline; files that are not UTF-8 count as empty.",
  "every byte sequence",
  "All encodings of all texts, mixed line ends and invalid bytes.",
  ["codeprep/fileutils.py: read_file_contents", "codeprep/fileutils.py: read_file_with_encoding", "codeprep/pipeline/parse_projects.py: preprocess_and_write"])
p("Corpus and text preprocessing agree",
  "Preprocessing a file as part of a corpus gives the same tokens as preprocessing its text through the text api with the end-of-file token appended.",
  "every file, every parser, every configuration and bpe codes, any earlier calls",
  "Two separate code paths compared on all inputs.",
  ["codeprep/api/text.py: preprocess, remove_trailing_newline", "codeprep/pipeline/parse_projects.py: preprocess_and_write", "codeprep/pipeline/to_repr.py: preprocess_and_write"])
p("No file makes preprocessing fail",
  "Whatever bytes a file has, and whatever its name, preprocessing it as part of a corpus gives a result.",
  "every file content, file name, configuration and usable bpe codes",
  "All byte sequences and names.",
  ["codeprep/pipeline/parse_projects.py: preprocess_and_write", "codeprep/fileutils.py: read_file_contents", "codeprep/parse/core.py: convert_text", "codeprep/pipeline/to_repr.py: preprocess_and_write"])
p("A preprocessed file gives back the tokens",
  "A preprocessed file of a corpus is a single line; split at spaces and with the escapes undone it is exactly the list of tokens of the file.",
  "every source file, configuration, and bpe codes",
  "All texts through parser, splitting and escaping.",
  ["codeprep/pipeline/to_repr.py: preprocess_and_write", "codeprep/util.py: to_literal_str", "codeprep/bpepkg/bpe_encode.py: get_bpe_subwords", "codeprep/parse/core.py: convert_text"])

p("Split words are delimited",
  "When words are split without bpe, the output text alone shows which subtokens belong together: a full token is a single subtoken, a capital mark with one subtoken, or a group between a word-start and a word-end mark; grouping the output this way gives exactly the full tokens reported in the metadata.",
  "every source text, every configuration that splits without bpe, every splitter",
  "All texts and options; the grouping must be recoverable from every output.",
  ["codeprep/tokens/containers.py: SplitContainer.preprocessed_repr, wrap_in_word_boundaries_if_necessary", "codeprep/tokens/word.py: Word.preprocessed_repr", "codeprep/tokens/containers.py: StringLiteral.preprocessed_repr"])
p("Splitting with case marks is reversible",
  "When words are split by identifier conventions (and marked for case), putting the subtokens of each full token together as the marks say gives the text of the token in the source.",
  "every list of parsed tokens, every configuration that splits by conventions",
  "All identifiers in all cases and alphabets.",
  ["codeprep/tokens/word.py: Word.preprocessed_repr, Word.from_", "codeprep/tokens/containers.py: SplitContainer.preprocessed_repr", "codeprep/parse/subtokens.py: split_identifier"])

p("No visible character is lost in parsing",
  "The parsed tokens of a text, written one after the other, are the text of the source with all white space left out.",
  "every output of the lexer",
  "All texts through all matchers and splitters.",
  ["codeprep/parse/core.py: convert_text, _convert", "codeprep/parse/matchers.py", "codeprep/parse/subtokens.py: split_into_words, split_string, split_identifier"])
p("Parsing keeps lines and indentation",
  "There is exactly one newline token for every line end of the text, also in comments and strings; an indentation by blanks gives one tab token for each four of them, an indentation by tabs one for each tab, and neither touches the tokens around it.",
  "every output of the lexer",
  "All texts and all ways of a lexer to cut white space.",
  ["codeprep/parse/core.py: convert_text", "codeprep/parse/matchers.py: NewLineMatcher, WhitespaceMatcher", "codeprep/parse/subtokens.py: split_into_words, split_string"])

p("Command line and API agree",
  "A preprocessing command with any options does exactly what the API function of the same name does with these options, for a text and for a corpus: the same tokens are printed, the same call is made on the corpus, an invalid id of bpe codes is reported as an error message.",
  "every command, every combination of options, every text and path, any state",
  "Two separate ways of building the configuration and of passing arguments compared on all option combinations.",
  ["codeprep/cli/impl.py: handle_splitting, create_prep_config_from_args, get_predefined_bpe_codes_id", "codeprep/cli/spec.py", "codeprep/api/text.py: nosplit, chars, basic, bpe", "codeprep/api/corpus.py: nosplit, chars, basic, bpe"])
p("append_eof only adds the end mark",
  "Calling a text function with append_eof gives the same tokens and metadata followed by the end-of-file token, and fails exactly if it fails without.",
  "every text, parser, configuration, bpe codes and earlier calls",
  "All texts, options and states.",
  ["codeprep/api/text.py: preprocess", "codeprep/pipeline/to_repr.py: to_repr"])

p("Learned bpe codes can be used",
  "Every learn-bpe command succeeds, keeps everything learned before and the ids given before; afterwards its codes can be used with the id of its dataset and any number of merges up to the one asked for: exactly that many of the merges of this dataset are used, and the words of this dataset that are not to be split are kept whole.",
  "every history of preprocessing and learning on any datasets and configurations, every order of listing the directories",
  "All histories of commands with ids that may collide, and all contents of the user's directories.",
  ["codeprep/cli/impl.py: handle_learnbpe", "codeprep/pipeline/bpelearner.py: run", "codeprep/pipeline/bperegistry.py: create_new_id_from, get_dataset_bpe_dir, get_base_vocab_dir, CustomBpeConfig.create", "codeprep/pipeline/dataset.py: Dataset.create, assign_bpe_codes_id", "codeprep/pipeline/to_repr.py: init_bpe_data"])

p("Strings and comments of the source are hidden as wholes",
  "With no_str each string of the source text appears as exactly one placeholder, with no_com each comment does, with max_str_length each string with more characters than this (quotes included) appears as two quotes; what is before and after it is the same as if it were not there, and a limit that no string of the text exceeds changes nothing.",
  "every output of the lexer, every configuration, every limit",
  "All texts, all positions of strings and comments, all limits.",
  ["codeprep/parse/matchers.py: StringMatcher, OneLineCommentMatcher, MultiLineLineCommentMatcher", "codeprep/parse/core.py: _convert", "codeprep/tokens/containers.py: StringLiteral, Comment", "codeprep/prepconfig.py: get_max_str_length"])

p("Vocabularies can be loaded by the id of the codes",
  "With the id of learned codes one gets the vocabulary of the dataset they were learned from, its words that are not to be split, the vocabulary without these, and for any number of merges the codes can be used with the subwords the words are split into, each with its number of occurrences, the most frequent first; preprocessing with these codes splits the words into the same subwords. The merges themselves can be loaded too: the first n of those learned, for every n a list of at least n merges was learned for.",
  "every history of preprocessing and learning, every id, every number of merges, every word",
  "All histories, datasets and numbers of merges.",
  ["codeprep/pipeline/vocabloader.py: all, nonbpe, base, bpe", "codeprep/pipeline/bperegistry.py: get_bpe_dir, get_base_vocab_dir, load_bpe_merges", "codeprep/pipeline/bpelearner.py: save_results", "codeprep/pipeline/to_repr.py: init_bpe_data"])

p("Learning works on words as strings",
  "Although learning keeps every word as one string with spaces between its symbols and finds the pair to merge with a regular expression, it merges exactly the pairs of neighbouring whole symbols, from left to right, whatever characters the words have (also those with a meaning in regular expressions); the merges, the saved files and their order are those of textbook learning on lists of symbols.",
  "every word and pair, every corpus, every number of merges and sequence of learn-bpe runs",
  "All words and pairs, with repeated, overlapping and special characters.",
  ["codeprep/bpepkg/bpe_learn.py: get_stats, merge_vocab, do_merges, create_bpe_cache, create_resulting_vocab", "codeprep/pipeline/bpelearner.py: prepare_vocabs, run"])

p("A merging process that ends too early makes no vocabulary wrong",
  "Single processes of the vocabulary computation may end too early (a wait for a queue times out, an error, killed alone) while the others go on. A vocabulary file that is written to its end nevertheless has the exact counts, and the size file the exact size. If a process is lost while merges are going on, this run writes no vocabulary at all; running the command again, any number of times and with further losses, can always be finished from what is left, with the right vocabulary.",
  "every corpus, number of processes and schedule, every sequence of losses, kills and restarts",
  "All schedules and all moments at which any of the processes may be lost.",
  ["codeprep/pipeline/vocab.py: VocabMerger.run, _finish_merges, _merge, calc_vocab, load_partial_vocabs", "codeprep/util.py: AtomicInteger.compare_and_dec"])

p("The corpus size is right whoever computes it",
  "get_corpus_size returns the number of tokens of the preprocessed corpus, also if it was called before, if an earlier call was killed, and if several programs call it for the same corpus at the same time.",
  "every corpus, every number of callers, every interleaving, every sequence of kills",
  "All interleavings of callers and all moments of a kill.",
  ["codeprep/api/corpus.py: PreprocessedCorpus.get_corpus_size, _calc_corpus_size, _calc_n_tokens"])

p("Suppressed caching gives the same results and computes them anew",
  "Calls with suppress_caching=True and without it on the same dataset, in any order and interrupted anywhere, end with all files preprocessed and right; a call with suppress_caching=True computes its files itself and leaves nothing that a later call takes for its result.",
  "every dataset and configuration, every sequence of calls, every point of interruption",
  "All mixtures of cached and uncached runs with kills at any operation.",
  ["codeprep/pipeline/parse_projects.py: run, preprocess_and_write", "codeprep/pipeline/to_repr.py: run, preprocess_and_write", "codeprep/pipeline/stages.py: run_parsing, run_until_preprocessing", "codeprep/pipeline/dataset.py: Dataset.suppress_caching, set_path_ready"])

p("Commands for the same dataset do not disturb each other",
  "Commands that preprocess the same dataset with the same configuration may be started at any time, also while others are working on it, and any of them may be killed. No command fails because of the others; whenever an output file is there, it is complete and right; and when all commands have ended, it is there.",
  "every content, every number of commands and start times, every interleaving of their file operations down to single bytes, every sequence of kills",
  "All interleavings of any number of processes.",
  ["codeprep/pipeline/to_repr.py: preprocess_and_write"])

p("All stages use the same complete list of files",
  "Every stage of a command (parsing, preprocessing, vocabulary, iterating over the corpus) works on a complete list of the files of the dataset, and all stages, also of later commands for the same state of the dataset, work on the same list: also when files come or go while the command is running, when earlier scans were killed or broken off, when caching is suppressed, and when another command works on the same dataset.",
  "every dataset and every sequence of its changes, every sequence of calls, kills and broken-off scans, every interleaving",
  "All interleavings of scanning, changes of the dataset, kills and readers.",
  ["codeprep/pipeline/dataset.py: Dataset.get_all_files, files_need_to_be_saved, set_path_ready, is_path_ready, is_path_outdated", "codeprep/dirutils.py: walk_and_save", "codeprep/pipeline/parse_projects.py: run", "codeprep/pipeline/to_repr.py: run"])

p("BPE over a whole text follows the textbook",
  "run_from_text(text, n) yields, step after step, the pair of neighbouring symbols that occurs most often (the one that comes first in the text if several do) and the number of times it is merged when every occurrence is merged from left to right; it stops after n merges or when the text is a single symbol; the indices it keeps for speed and the order in which Python goes through its sets have no influence; asking for fewer merges gives the first ones.",
  "every text, every number of merges, every order of the sets",
  "All texts with repeated and overlapping pairs, and all iteration orders of sets.",
  ["codeprep/bpepkg/wild_bpe.py: build_indices, update_location_index, update_neighbour_index, run, run_from_text", "codeprep/util.py: PriorityCounter"])

p("Files are read once for BPE over whole texts",
  "run_from_file and run_from_dir work on the characters of the files as they are, each once, in UTF-8 if the file is UTF-8 and one character per byte otherwise, with blanks replaced so that pairs can be told apart; on every file and directory they yield the merges of the textbook algorithm for this text.",
  "every content of files, every division of it into chunks read, every number of merges, every order of the sets",
  "All byte contents, encodings and chunk boundaries.",
  ["codeprep/bpepkg/wild_bpe.py: get_char_iterator_for_file, get_char_iterator_for_file_with_encoding, escape_char, get_char_iterator_for_dir, run_from_file, run_from_dir"])

p("Every visible character of the source is in the output",
  "If comments, strings and non-English words are not replaced, the visible characters of the source, in their order, are those of the output: of the tokens as they are with nosplit; of the tokens after joining their parts and removing the end mark with bpe and chars; of the tokens after reading the word and case marks with basic and ronin (the mark <EOL> after one-line comments left out). So two texts that differ in a visible character never give the same tokens and word boundaries.",
  "every source text, every lexer, every splitting, every list of merges and content of the BPE cache",
  "All source texts, in all splittings, through parser, representation and metadata together.",
  ["codeprep/parse/core.py: convert_text", "codeprep/parse/subtokens.py", "codeprep/preprocess/core.py: to_repr_list", "codeprep/pipeline/to_repr.py: to_repr", "codeprep/tokens/*.py: non_preprocessed_repr, preprocessed_repr"])

p("A corpus that has been preprocessed gives back the tokens of its texts, and its vocabulary counts them",
  "When preprocessing a corpus has ended regularly, however often it was killed and started again before, the output file of every source file, read line by line and word by word, gives the tokens that the functions for texts return for the text of the file (with a newline before the end mark if the text ends with one and newlines are kept). The corpus size is the number of all these tokens, and a vocabulary that has been written, whatever the counting processes did and however often they were killed, has exactly these tokens, each with the number of its occurrences, and the vocabulary size is the number of different ones.",
  "every set of source files with names with UTF-8 extensions and any bytes, every configuration, every lexer and splitter, every history of kills and restarts, every order of the files, every schedule of the counting processes",
  "All corpora and all interleavings of two multi-process programs with kills, with files as the only link between them.",
  ["codeprep/api/corpus.py: preprocess_corpus", "codeprep/pipeline/parse_projects.py", "codeprep/pipeline/to_repr.py", "codeprep/pipeline/vocab.py", "codeprep/pipeline/vocabloader.py", "codeprep/api/text.py: preprocess", "codeprep/preprocess/placeholders.py"])

p("Stemming changes the parts of words only and keeps their case",
  "With stem=True the tokens are those of ronin=True, at the same places and with the same word boundaries and types; only the parts of words are replaced by their stems, whatever the other options and split_numbers. The stem of a word of letters has the case of the word (all in upper case, first letter in upper case, lower case), and words that differ only in case have stems that differ only in case.",
  "every token sequence, every word of ASCII letters, every ronin splitter whose parts have no <, every stemmer that puts words into lower case",
  "All texts and all external splitters and stemmers.",
  ["codeprep/stemming.py: stem", "codeprep/prepconfig.py: get_word_splitter, get_number_splitter", "codeprep/api/common.py: create_split_value", "codeprep/api/text.py: basic"])

p("The options of learn-bpe do what they say, or the command changes nothing",
  "codeprep learn-bpe --legacy learns from Java files only, exactly as --ext java, and does nothing at all if other extensions are asked for. A command with an option that is not supported (--word-end, --bytes) ends with an error and learns nothing: lists of merges, vocabularies and ids that are there stay as they are, and later commands are not influenced. Any other command learns from the files with the given extensions, with characters outside ASCII replaced just if --no-unicode is given, and its codes can be used by the id and every number up to <n-merges> that the words allow.",
  "every combination of options, every path and extension string, every state of the directories of merges",
  "All combinations of options with all states that earlier commands have left.",
  ["codeprep/cli/impl.py: handle_learnbpe, create_bpe_config_from_args", "codeprep/cli/spec.py: learn-bpe", "codeprep/pipeline/dataset.py: normalize_extension_string", "codeprep/pipeline/bperegistry.py: create_new_id_from, write_bpe_codes_id", "codeprep/pipeline/bpelearner.py: run"])

p("The ids listed for an unknown id are those that can be used",
  "When codes are asked for by an id that does not exist, the message lists lines id-[1..v]; id-n can be used exactly if there is a line for id with v at least n.",
  "every history of commands, every id and number, every order of the directories",
  "All states of the directory of codes and all ids.",
  ["codeprep/pipeline/bperegistry.py: format_available_merge_list_ids, _get_all_custom_bpe_codes_and_max_merges, get_dataset_bpe_dir, get_max_merges, get_min_merges, CustomBpeConfig.from_id"])

p("The vocabulary script counts the words of the files with an extension",
  "python -m codeprep.cli.vocab PATH OUT EXT reads exactly the files below PATH whose names end with EXT, each once, and a vocabulary file that it leaves, also after interruptions, has one line for each word of these files with the number of its occurrences, more frequent words first; if there are no such files no vocabulary is written.",
  "every directory tree, every extension, every content of the files, every schedule of the merging processes and every interruption",
  "All trees, contents, schedules and interruptions.",
  ["codeprep/cli/vocab.py", "codeprep/dirutils.py: walk", "codeprep/pipeline/vocab.py: calc_vocab, create_partial_vocabs, write_vocab"])

p("The token types in the metadata tell what the tokens are",
  "For every text and configuration the list of token types has one entry for each full token of the output, and the entries tell what the lexer found there: the full tokens with their types are, in order, those that the tokens of the lexer give. A bracket, brace or semicolon of the code has its own type and is there as it is, other operators and keywords likewise; a number is one full token (0 and 1 have their own types); all full tokens that a string or a comment gives have the type of strings or comments; newlines and indentation have theirs.",
  "every output of the lexer, all configurations and merge lists, all Unicode tables",
  "All texts, all configurations and all merge lists.",
  ["codeprep/preprocess/metadata.py: PreprocessingMetadata", "codeprep/parse/matchers.py", "codeprep/parse/core.py: convert_text", "codeprep/preprocess/core.py: to_repr_list", "codeprep/tokens/*.py", "codeprep/pipeline/to_repr.py: to_repr"])

p("The counter of the merging processes is exact under every schedule",
  "Whatever calls (inc, dec, compare_and_dec, get_and_dec, value) any number of processes make on an AtomicInteger and however they are scheduled, the results are those of the calls made one after the other on an integer, in the order in which the calls end. So when n merging processes ask compare_and_dec(1) of a counter that starts at n, exactly one is told that it is the last, and only after all others have their answer; every execution ends and nobody waits for ever. On one process NonAtomicCounter gives the same results.",
  "any number of processes, any programs, all interleavings of the single operations on the lock and the queue",
  "The interleavings cannot be enumerated or provoked by a test.",
  ["codeprep/util.py: AtomicInteger, NonAtomicCounter", "codeprep/pipeline/vocab.py: VocabMerger.run, calc_vocab"])

p("The extension decides the language, and everything visible in the source reaches the output",
  "The extension of a file (or the argument) decides by which lexer the text is read, java if there is none, whatever is in the text. The characters of the source other than blanks are the characters of the output in their order when nothing is left out by the configuration: without splitting as they are, with bpe or basic splitting after the subtokens are put together. Line ends are kept, except empty lines at the beginning and the end, however they are written (LF, CR LF, CR), and a byte order mark makes no difference.",
  "every text and file content, every extension, every lexer that returns its text in pieces, all configurations that leave nothing out",
  "All texts, encodings, line ends and lexers.",
  ["codeprep/parse/core.py: convert_text", "codeprep/pipeline/parse_projects.py: preprocess_and_write", "codeprep/api/text.py: nosplit, bpe, basic", "codeprep/preprocess/core.py: to_repr_list", "codeprep/parse/matchers.py"])

p("Preprocessing leaves the dataset as it is",
  "Preprocessing a corpus changes nothing but the caches and vocabularies of codeprep, the directory with the results and the file beside it that says when it was finished. If the output path is not in the dataset, the files of the dataset and their times of modification are the same afterwards, also after interruptions, so that a later call with the same arguments finds the results.",
  "every dataset, every path and output path however written (relative, with dots), every working directory, every sequence of the operations of a run",
  "All directory layouts, paths and interruptions.",
  ["codeprep/pipeline/dataset.py: Dataset.create, SubDataset.get_new_file_name, set_path_ready, archive_path", "codeprep/api/corpus.py: preprocess_corpus", "codeprep/pipeline/parse_projects.py: preprocess_and_write", "codeprep/pipeline/to_repr.py: preprocess_and_write, run", "codeprep/dirutils.py: walk_and_save, get_timestamp"])

p("More merges only join subtokens",
  "Preprocessing with more merges of the same list (more merges read from the same file, more merges learned for the same corpus, or some merges instead of chars) gives the same full tokens of the same types; each is the same or has neighbouring subtokens joined, so no boundary appears that was not there, and the output is never longer.",
  "every list of merges and every longer one, every text, every configuration with bpe, every number of merges read or learned",
  "Only some words and lists of merges can be tried; a wrong order of merges shows for particular words only.",
  ["codeprep/bpepkg/bpe_encode.py: encode, get_bpe_subwords", "codeprep/bpepkg/merge.py: read_merges", "codeprep/bpepkg/bpe_learn.py: do_merges", "codeprep/pipeline/to_repr.py: to_repr"])

p("Doing the same again gives the same, apart from ties",
  "Two computations of the vocabulary of the same files, whatever the number of processes and their schedules and interruptions, give files with the same lines and line for line the same counts; only words that are equally frequent can have changed places. Limiting them gives the same words. Codes learned from them, in one or several steps, are the same and split every word in the same way.",
  "all collections of files in any order, all numbers of groups, chunks and processes, all schedules, interruptions and restarts; all thresholds; all corpora, numbers of merges and sequences of earlier learnings",
  "tests run one schedule on one machine; the order in which parts are made and merged depends on timing",
  ["codeprep/pipeline/vocab.py:97-99", "codeprep/pipeline/vocab.py:87-95", "codeprep/pipeline/vocab.py:216-269", "codeprep/bpepkg/bpe_learn.py:20-115", "codeprep/pipeline/bpelearner.py:37-115", "codeprep/util.py:123-159"])

p("Placeholders stand for what was hidden, never for text of the source",
  "In the output <comment> occurs exactly once for each comment of the text if comments are hidden and never otherwise; <str-literal> exactly once for each string if strings are hidden and never otherwise; <EOL> once for each one-line comment that is shown; <EOF> never, and <non-en> never unless non-English words are replaced. Text that reads like a placeholder, in a comment, a string or the code, is not taken for one.",
  "every output of the lexer whose keywords and operators are no placeholders, all configurations that hide strings or write them in pieces, all merge lists, all Unicode tables",
  "All texts that contain parts of placeholders and all configurations.",
  ["codeprep/preprocess/placeholders.py: placeholders", "codeprep/tokens/containers.py: Comment, StringLiteral, OneLineComment", "codeprep/tokens/noneng.py: NonEng", "codeprep/parse/matchers.py", "codeprep/parse/core.py: convert_text", "codeprep/pipeline/to_repr.py: to_repr"])

p("A dataset is the same however its path is written",
  "Relative, absolute or with . and .. in it, and from whatever working directory: a path to the same dataset makes learn-bpe do the same, and makes preprocessing read the same files and write the same results to the same places, so that what was done before is found.",
  "all working directories, all ways to write a path that lead to the same directory, all configurations and trees",
  "There are unboundedly many ways to write a path.",
  ["codeprep/cli/impl.py: handle_learnbpe, handle_splitting", "codeprep/pipeline/dataset.py: Dataset.get_dataset_dir_name, SubDataset.get_new_file_name, SubDataset.file_iterator_from_file", "codeprep/dirutils.py: walk_and_save"])

p("The way of splitting does not change the tokens that are split",
  "Two configurations that differ in how words are split (nosplit, basic, numbers, ronin, stemming, chars, bpe; with or without marks for the case) but treat comments, whitespace and strings alike give the same number of full tokens, and the full tokens at the same place have the same type, except that a word with non-English letters may be typed as any other word; where nothing is hidden and no stemming is done, the parts of each token put together are the same words.",
  "every list of parsed tokens, every pair of configurations, every word splitter, all bpe data",
  "All pairs of configurations on all texts.",
  ["codeprep/tokens/containers.py: SplitContainer, StringLiteral, Comment", "codeprep/tokens/numeric.py: Number", "codeprep/tokens/noneng.py: NonEng", "codeprep/prepconfig.py: get_repr_config", "codeprep/pipeline/to_repr.py: to_repr"])

p("no_case changes how the words are written and nothing else",
  "With no_case there are the same full tokens of the same types as without it. In the words each part in upper case is replaced by <CAPS> and the part in lower case, each part that begins with a capital letter by <Cap> and the part with a small first letter; the other parts and the marks of words stay. Afterwards no part of a word has a letter in upper case. Keywords, operators and other tokens that are not words stay as they are.",
  "every output of the lexer of characters with simple case, all options of basic splitting other than ronin and stem",
  "All texts and combinations of options.",
  ["codeprep/tokens/word.py: Word.from_, preprocessed_repr, __with_capitalization_prefixes", "codeprep/tokens/containers.py: SplitContainer, wrap_in_word_boundaries_if_necessary", "codeprep/parse/subtokens.py", "codeprep/api/common.py: create_prep_config", "codeprep/pipeline/to_repr.py: to_repr"])

p("no_unicode replaces the words with non-ascii characters and nothing else",
  "With no_unicode there are the same full tokens as without it, in the same order. A full token of ascii characters only is the same and has the same type. Each word with a non-ascii character is replaced by <non-en>, as a whole, and typed as a non-English word unless it belongs to a comment or to a string. Single non-ascii characters that are not words stay. In strings that are written as one token each run of non-ascii characters between two spaces becomes one character.",
  "every output of the lexer of characters with simple case, all options of nosplit and of basic splitting",
  "All texts, all characters and combinations of options.",
  ["codeprep/tokens/noneng.py: NonEng", "codeprep/tokens/word.py: Word, NonProcessibleToken", "codeprep/tokens/containers.py: SplitContainer, StringLiteral", "codeprep/parse/matchers.py", "codeprep/noneng.py: replace_non_ascii_seqs", "codeprep/pipeline/to_repr.py: to_repr"])

p("learn-bpe commands at the same time do not spoil each other's results",
  "If several learn-bpe commands for the same dataset, for the same or different numbers of merges, run at the same time, every directory of codes that is not just being written has the complete results of textbook learning with as many merges as its name says; what is there once is never changed; every command ends, and none fails except that another one has made its directory in the meantime; for every command that has ended there is a directory with as many merges as it has learned.",
  "all corpora, all numbers of commands and of merges, all times at which commands start, all interleavings of their steps and of the parts in which the files are written",
  "Whether two commands get in each other's way depends on timing; a test sees a few of the unboundedly many interleavings.",
  ["codeprep/pipeline/bpelearner.py:37-115", "codeprep/bpepkg/merge.py: read_merges, dump_merges"])

p("With bpe the vocabulary is closed and bounded by the number of merges",
  "Whatever texts are preprocessed with bpe codes of n merges and whatever the other options, each token of the output is a single character, the subtoken that one of the merges makes, the mere end of a word, 0, 1, a mark for something hidden, or one of the tokens listed as not processed. So there are at most n + 1 different subtokens longer than a character, however much is preprocessed.",
  "all texts, any number of them; all merge lists; all options",
  "It is about all words that can ever occur: tests only see the words they contain.",
  ["codeprep/bpepkg/bpe_encode.py: encode_word, get_bpe_subwords, escape, unescape", "codeprep/pipeline/to_repr.py: to_repr, insert_and_word_tokens", "codeprep/tokens/*.py: preprocessed_repr", "codeprep/parse/core.py: convert_text"])

p("learn-bpe commands for different datasets at the same time give different ids",
  "If learn-bpe commands for different datasets whose names cannot lead to the same id run at the same time, and any of them is killed at any moment, there is never an id that two datasets have; a dataset that has an id keeps it; a command that comes to learning has an id for its dataset, the one it had before, or one that is made of its name or given with --id, and that no dataset had; no command has to wait for another one; and if all of them end, all this holds for the commands started next.",
  "all numbers of commands, all contents of the directory of codes that finished commands leave, all orders in which it is listed, all interleavings of the steps, also with preprocessing commands that make directories",
  "Commands read the id files of other datasets while these are being written; a test sees a few of the unboundedly many interleavings.",
  ["codeprep/cli/impl.py:54-62", "codeprep/pipeline/bperegistry.py: create_new_id_from, write_bpe_codes_id, get_codes_id_by_bpe_path, _get_all_custom_bpe_codes_and_max_merges", "codeprep/pipeline/dataset.py: assign_bpe_codes_id"])
p("Removing the cache does not change the results",
  "Whatever parts of the cache, that is, saved lists of files, parsed files, corpus sizes and the splittings kept for words, are removed between runs, together with the marks that they are complete, and whatever is killed before or after that: the next run that ends gives the same files, the same list of special tokens, the same corpus size and a vocabulary that counts all tokens, and such a run is not prevented from ending.",
  "all datasets, all functions that parse and split, all histories of killed and finished runs and of removals, all subsets of the files removed",
  "Each subset of files that can be missing is a state of its own, and the markers and time stamps make the outcome depend on the history; tests try one or two.",
  ["README.md: Caching", "codeprep/config.py:32-41", "codeprep/pipeline/dataset.py: SubDataset.is_outdated, ready, archive", "codeprep/pipeline/stages.py", "codeprep/pipeline/dataset.py: get_all_files, files_need_to_be_saved", "codeprep/api/corpus.py: get_corpus_size", "codeprep/pipeline/to_repr.py:86-115"])
p("Results that were changed are set aside, not lost, when they are made anew",
  "When a finished stage has been changed since it was finished, it is archived before it is made again: then everything that was in it, and its marker, is found under the archived names and nothing is left at the old place. Whether archiving succeeds or fails, files elsewhere stay as they are, and what has been archived stays whatever is archived later.",
  "every directory tree, every path of results and every place of the archive, all times, every sequence of calls of archiving, successful or not",
  "Every state of the tree at the target, every name that may be taken already and every sequence of calls; tests archive one directory into an empty place on one device.",
  ["codeprep/pipeline/dataset.py:318-324", "codeprep/pipeline/dataset.py:290-315", "codeprep/pipeline/stages.py:19-39", "codeprep/config.py:36"])
p("Commands with different options for the same dataset do not disturb each other",
  "Commands that preprocess the same dataset with different options share the parsed dataset. They may be started at any time, also while others are at work, and any of them may be killed: none fails because of the others, each comes to its end if it is not killed, and then has an output file for every file of the dataset, with the representation that belongs to its own options.",
  "every dataset, every parser and representation, every number of commands, every interleaving of their steps, every sequence of kills, every state left by earlier commands",
  "All interleavings of several programs on shared files and markers, with kills at any moment; tests run one command.",
  ["codeprep/pipeline/stages.py:19-36", "codeprep/pipeline/parse_projects.py:22-73", "codeprep/pipeline/to_repr.py:60-81", "codeprep/pipeline/to_repr.py:131-174", "codeprep/pipeline/dataset.py:138-139", "codeprep/pipeline/dataset.py:295-324"])
p("Files that disappear while a command is running are left out and do no harm",
  "If a file of the dataset has disappeared between the scan of the dataset and its parsing, there is a message and the file is ignored: the command goes on with the other files and ends, and its output files are right. If the file is there again, a later command processes it.",
  "every list of files, every parser and representation, every history of runs, kills and files that come and go, every moment at which a file is read",
  "Every combination of files that are missing at the moment they are read, and every history of runs afterwards; a test would have to remove files between two steps of a running program.",
  ["codeprep/pipeline/parse_projects.py:33-45", "codeprep/pipeline/parse_projects.py:54-73", "codeprep/pipeline/to_repr.py:60-81", "codeprep/pipeline/to_repr.py:131-174", "codeprep/pipeline/stages.py:19-36"])
p("Links to directories do not keep a scan from ending, and each file is processed once",
  "A dataset may contain symbolic links to directories, also ones that lead back to a directory around them. The scan ends. It lists every file of the dataset under its own path, no name twice, and nothing but files to which a path over links leads that the system follows. Links that stay in the dataset add no files, and each file is processed once.",
  "every file system with any links, every dataset in it, every filter for extensions, every number of links that the system follows",
  "The paths through cyclic links are exponentially many; tests have datasets without links.",
  ["codeprep/dirutils.py:27-52", "codeprep/dirutils.py:55-82", "codeprep/pipeline/dataset.py: get_all_files"])
p("A file that cannot be read does not keep other files from being processed, and does no lasting harm",
  "If a file of the dataset cannot be read, because of its permissions, say, the command leaves it out and processes the other ones. Whether or not the command fails: what has been parsed and written stays, no wrong output is left, and once the file can be read, the next command ends with the right output for all files.",
  "every list of files, every parser and representation, every history of runs that fail or are killed at any moment, every combination of files that can and cannot be read in each of them",
  "Every combination of unreadable files and every moment of failure in a history of runs; tests read files that are there.",
  ["codeprep/pipeline/parse_projects.py:22-45", "codeprep/pipeline/parse_projects.py:54-73", "codeprep/fileutils.py:36-48", "codeprep/pipeline/stages.py:19-36"])
p("Preprocessing gives files and directories names that the file system takes",
  "Whatever names the files of a dataset have, whatever extensions are asked for and whatever the configuration is: the names of lists, parsed files, outputs, temporary files, parts of vocabularies, markers and archives are not longer than the file system allows, so that no run fails because of them.",
  "every dataset, every run, every limit for the length of names, every length of the time in a name, every sequence of the operations of a run",
  "The lengths of the names of a run depend on all names in the dataset, on the extensions and on the letters in them; tests use short names.",
  ["codeprep/pipeline/dataset.py:173-259", "codeprep/pipeline/dataset.py:290-324", "codeprep/pipeline/parse_projects.py:22-45", "codeprep/pipeline/to_repr.py:60-81"])
p("The directory given is the one that is read and written, whatever letters its path has",
  "Whatever bytes the path of a dataset or of an output directory consists of: if it exists, its files are listed and processed, and the outputs are in the directory that is made and reported; if it does not, this is an error. A dataset with files is never taken for an empty one.",
  "every path of bytes, every contents of the file system, every filter for extensions, UTF-8 and ISO-8859-1 as encoding of the file system",
  "All byte sequences that are and are not UTF-8; the encoding of the file system belongs to the locale in which tests run.",
  ["codeprep/dirutils.py:27-52", "codeprep/pipeline/dataset.py:54-69", "codeprep/pipeline/dataset.py:128-151"])
p("split_numbers splits the numbers, in code, comments and strings, and nothing else",
  "With split_numbers=True there are the same full tokens with the same types as without; every number, in code as well as in comments and strings, is given by its characters, one subtoken each, between <w> and </w> if there are several; every other full token is the same, and so are the non-processable tokens.",
  "every sequence of tokens of the lexer, every setting of the other options of basic",
  "All texts, all numbers, all words that contain digits without being numbers; tests show single numbers.",
  ["codeprep/tokens/numeric.py:18-34", "codeprep/prepconfig.py:137-180", "codeprep/preprocess/core.py:12-32", "codeprep/api/text.py:239-356"])
p("full_strings joins the tokens of each string into one and changes nothing else",
  "With full_strings=True every string is one token and nothing else changes: the tokens of the string without the option, in their order, with the spaces of the string between them as non-breaking spaces. All other tokens and their types are the same. A string within the limit is given exactly as it is in the source, apart from these spaces and the case of numbers.",
  "every sequence of tokens of the lexer, every setting of the other options of nosplit (no_unicode is in C102), every string",
  "All texts and all strings, with every arrangement of spaces, words and other characters in them, and strings next to each other; tests show single strings.",
  ["codeprep/tokens/containers.py:121-155", "codeprep/tokens/whitespace.py:42-49", "codeprep/prepconfig.py:166-189", "codeprep/api/text.py:43-112"])
p("Encoding a vocabulary encodes each word, keeps the counts and the order, and joins no two words",
  "encode gives, for a vocabulary of words with counts, each word by its textbook byte-pair encoding with blanks between the parts, with its count and in the same order. Different words stay different, and the word is recovered from its parts. A word with an at sign that is neither doubled nor last is a ValueError and nothing is returned.",
  "every vocabulary, every merge list without repeated pairs, every count",
  "All vocabularies and merge lists; that no two words fall together depends on all pairs of words; tests encode single words with one merge list.",
  ["codeprep/bpepkg/bpe_encode.py:47-59", "codeprep/bpepkg/bpe_encode.py:62-112", "codeprep/bpepkg/bpe_encode.py:115-147"])
p("Comparing tokens, configurations and metadata with == tells what is the same",
  "Two parsed tokens are == exactly if they are of the same class (a semicolon is not an operator with the same text) and have the same content down to every nested token. Two configurations are == exactly if their encoded strings, which name the directories of the results, are the same, whatever the order in which the options were given. Lists of tokens that are == are preprocessed to the same output and metadata, or to the same error, with configurations that are ==. Metadata are == exactly if they have the same boundaries, types and set of non-processable tokens.",
  "all parsed tokens of every nesting, all valid configurations in any order of their parameters, all metadata, all splitters and bpe data",
  "Every class has its own comparison, and nested tokens are compared recursively; tests use == in their assertions and so cannot see a comparison that takes different tokens for equal.",
  ["codeprep/tokens/word.py:15-16", "codeprep/tokens/word.py:101-103", "codeprep/tokens/word.py:124-125", "codeprep/tokens/containers.py:29-30", "codeprep/tokens/containers.py:88-89", "codeprep/tokens/containers.py:153-154", "codeprep/tokens/numeric.py:36-37", "codeprep/tokens/noneng.py:38-39", "codeprep/tokens/whitespace.py:16-17", "codeprep/tokens/whitespace.py:54-55", "codeprep/prepconfig.py:134-135", "codeprep/preprocess/metadata.py:61-65"])

with open('/verif/properties.jsonl', 'w') as f:
    for x in P:
        f.write(json.dumps(x) + '\n')
print(len(P))
