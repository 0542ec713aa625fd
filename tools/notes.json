{
 "C02": [
  "partial",
  "Not true of the code without restriction: proved for merge lists in which no merge result ends with the mark itself (C02_marks_agree), for all merge lists if the mark is not in a token (C02_any_merges), and without condition for chars mode; C02_refuted gives a merge list for which marks and boundaries disagree."
 ],
 "C03": [
  "partial",
  "Not true of the code without restriction: lossless for every token that has no non-ascii characters to be replaced; with no_unicode the replaced words are treated by C03_no_unicode_words, and C03_no_unicode_refuted shows a word whose case information is lost."
 ],
 "C08": [
  "proved",
  "For the limits that can be encoded in a configuration (2..61 and the default, see C40)."
 ],
 "C09": [
  "partial",
  "Not true of the code without restriction: proved for texts whose non-ascii characters are in words; C09_text_refuted and C09_refuted show single non-ascii characters outside words that stay in the output; C09_every_sign_refuted: every such character in a name or a comment stays, with every configuration."
 ],
 "C10": [
  "partial",
  "Not true of the code without restriction: proved for identifiers of ascii characters and of characters with a one-to-one lower case; C10_refuted: U+1E9E is not reproduced. C10_recased: what every identifier is shown as, whatever its letters; C10_upper_refuted: every identifier of upper case letters is changed exactly if it is not the upper case of its lower case."
 ],
 "C16": [
  "proved",
  "For words without spaces (the tokeniser produces no others), any merge list without repeated pairs, and caches that hold real encodings."
 ],
 "C18": [
  "partial",
  "Not true of the code without restriction: proved for words outside the cache and for cached words not yet looked up; C18_cached_word_refuted: a cached word looked up twice loses its end mark inside the cache."
 ],
 "C21": [
  "partial",
  "Not true of the code without restriction: needs pairs to be appended at most once; C21_duplicate_pair_refuted otherwise; C21_exact: whatever the history of the list, this condition is also necessary. C21_items: length, items from both ends, errors beyond them, slices within the list. C21_slices: slices with any bounds, without a step. C21_equal: equality of lists. C21_repeated_refuted: every pair that is there is accepted again, and then has the same priority as the next new pair."
 ],
 "C22": [
  "partial",
  "Not true of the code without restriction: for symbols without spaces and merges with a frequency; C22_exactly: these two conditions are also necessary; C22_one_without_frequency_refuted: one merge without a frequency makes the whole file unreadable; C22_format: the exact text of the file."
 ],
 "C23": [
  "partial",
  "Not true of the code without restriction: for n > 0 and files without repeated pairs (every dumped file); C23_zero_refuted and C23_duplicate_line_refuted otherwise; C23_accepts: exactly which files can be read (a repeated pair is refused except in the last line); C23_prefix_exact: exactly when the first n merges are a prefix of all."
 ],
 "C25": [
  "proved",
  "C25_escapes: also what texts with escapes written by others are read as, except octal escapes with fewer than three digits and the named escape, which is an error in the model."
 ],
 "C26": [
  "partial",
  "Not true of the code without restriction: holds for words that were escaped before dumping (all vocabularies the program dumps); C26_raw: raw ASCII words without tabs and line ends are read back exactly if no backslash begins an escape sequence; C26_unescaped_refuted: otherwise they change."
 ],
 "C27": [
  "partial",
  "Not true of the code without restriction: holds if no two entries of the vocabulary have the same spelling but different splits; C27_same_spelling_refuted otherwise."
 ],
 "C29": [
  "partial",
  "Not true of the code without restriction: holds when learning starts from words split into characters (C29_from_scratch) or any splits produced by learning; C29_mixed_splits_refuted shows mixed initial splits for which learning fails."
 ],
 "C31": [
  "partial",
  "Not true of the code without restriction: prefix property proved without condition; resuming gives the same merges if no two pairs have the same frequency when resumed; C31_resume_refuted shows a tie where the result differs."
 ],
 "C32": [
  "proved",
  "The cache of C32_cache is the one computed from the result of do_merges."
 ],
 "C33": [
  "partial",
  "Not true of the code without restriction: for queues whose initial counts are not zero; C33_initial_zero_refuted: an initial count of zero is popped. C33_first_pop: for all initial counts, what the first pop gives; C33_zeros_refuted: whenever no initial count is positive and one is zero, it is a zero."
 ],
 "C36": [
  "partial",
  "Not true of the code without restriction: unique if the name matches itself as a regular expression, no directory without merges uses it and it has no surrounding white space; the three refutations show each condition is needed. For all states: C36_unfinished_ids_refuted: directories without merges do not count, whatever their ids; C36_unmatched_refuted: if the name as a pattern matches no id that is there, the new id ends with 1 whether it is taken or not."
 ],
 "C37": [
  "partial",
  "Not true of the code without restriction: case, word end and unicode parameters are recovered; the base parameter is lost (C37_base_refuted) and dataset names containing the separator are cut (C37_separator_refuted). C37_exact: exactly the configurations with the base code are recovered. C37_separator_exact: exactly which names of datasets are recovered, and that a proper beginning is taken for the name otherwise. C37_refused: for all strings, exactly those with nocase or prefix anywhere in them are refused, and which configuration the others are read as."
 ],
 "C39": [
  "partial",
  "Not true of the code without restriction: merge-list ids other than 0 and split values other than 7; both exceptions refuted. C39_source_used: the merges that are used are those found for the configuration and the id."
 ],
 "C40": [
  "partial",
  "Not true of the code without restriction: for the lengths that are encodable (2..61 and the default); others refuted."
 ],
 "C41": [
  "partial",
  "Not true of the code without restriction: proved for plain runs (extensions without underscore and dash, ids without the separator) of datasets at one location; refuted for the same name and time stamp at another location (all datasets have the same name if the path ends with a slash, C41_slash_refuted), extensions with underscore and ids with the separator. C41_same_name_refuted: all datasets whose paths end with the same name share all their directories if they were changed last in the same second. C41_shared_refuted: for all runs that agree in the last name, the time stamp and the extensions put together with underscores."
 ],
 "C42": [
  "partial",
  "Not true of the code without restriction: proved for runs in which no queue operation times out; C42_timeout_refuted shows a schedule with time-outs in which all processes end and no vocabulary is written. That a vocabulary written in spite of time-outs is right, and that a restart finishes, is C79."
 ],
 "C44": [
  "partial",
  "Not true of the code without restriction: requires that reading a truncated pickle raises EOFError; C44_truncated_refuted: any other exception stops the restart."
 ],
 "C45": [
  "partial",
  "Not true of the code without restriction: C45_refuted: a crash while the vocabulary file is being written leaves an incomplete file that is taken as final; for every other crash point the property is proved (C45_otherwise)."
 ],
 "C48": [
  "partial",
  "Not true of the code without restriction: for thresholds other than exactly the number of words; C48_equal_refuted: IndexError there."
 ],
 "C49": [
  "proved",
  "The first line: C49_size, C49_lines; the whole file: C49_stats; the shares are right to four places: C49_share. A line is the mean over the vocabularies that happened to be merged, so the sizes need not grow from line to line (C49_stats_ex). Quotients of floats are taken as exact before they are cut or rounded."
 ],
 "C50": [
  "partial",
  "Not true of the code without restriction: atomicity and equality of results proved for all histories; every run ends (C50_terminates), and regularly if all sources are there and no process was killed while writing a part of the non-bpe vocabulary (C50_finish); otherwise C50_missing_refuted and C50_truncated_refuted. C50_no_temporary: no temporary files are left after a regular end."
 ],
 "C51": [
  "partial",
  "Not true of the code without restriction: no two files collide (C51_targets); a directory named like an output file makes the run fail (C51_directory_refuted)."
 ],
 "C52": [
  "partial",
  "Not true of the code without restriction: proved for the parsing and preprocessing stages, with C52_second_run for caching that is not suppressed (otherwise C81), except for a kill between opening and writing a marker (C52_marker_refuted: everything is done again); the two vocabulary stages calculate the vocabulary once (C52_vocab_once), and never again when it is outdated (C52_base_vocab_refuted, C52_vocab_refuted)."
 ],
 "C53": [
  "partial",
  "Not true of the code without restriction: proved for datasets of at most limit (1000) entries and changes below the root, not behind a link to a directory, in a later second (C53_noticed, C53_directory, C53_clock); the stamp is the date, in the Gregorian calendar, of the latest entry (C53_latest, C53_calendar, C53_stamped); refuted beyond the limit (C53_limit_refuted), within a second or a repeated hour (C53_second_refuted), for files removed from the root directory (C53_root_refuted), behind links (C53_link_refuted); a directory of links to files only cannot be processed (C53_links_only_refuted). C53_removed_refuted: any file in the root directory that is not newer than all others can be removed or added without a change of the stamp. C53_operations: for all trees of files and all operations, writing a file or making a directory anywhere in the dataset, and removing or moving anything below its top, gives another stamp."
 ],
 "C54": [
  "partial",
  "Not true of the code without restriction: C54_refuted: whenever the process is killed between creating the directory and writing its last byte, running the command again fails or reports the merges as learned, and no later run repairs the directory; proved: without interruption every sequence of runs succeeds and leaves complete results (C54_runs), repeating a run changes nothing (C54_again), and fewer merges can still be learned after a kill (C54_smaller)."
 ],
 "C55": [
  "partial",
  "Not true of the code without restriction: proved for lists other than the single empty extension; C55_empty_refuted: the empty extension alone means no filter, written twice it is one. C55_exact: two lists of extensions mean the same exactly if they have the same extensions and both or none of them are the empty extension alone."
 ],
 "C57": [
  "partial",
  "Not true of the code without restriction: for nondecreasing boundaries; C57_unordered_refuted: validation accepts unordered boundaries, for which subtokens are repeated. C57_exactly: for boundaries that are accepted, the full tokens are a partition exactly if the boundaries, cut off at the number of subtokens, do not decrease."
 ],
 "C58": [
  "partial",
  "Not true of the code without restriction: for strictly increasing boundaries; C58_repeated_refuted: repeated boundaries pass validation and give the wrong index. C58_exactly: the index is always right exactly if boundaries are repeated at the end only."
 ],
 "C59": [
  "partial",
  "Not true of the code without restriction: proved for the default option (fresh bpe data in every call) for every sequence of earlier calls, and for every call without bpe; with force_reinit_bpe_data=False other codes are ignored once some are loaded (C59_other_codes_refuted) and after a call that failed every later one fails (C59_failed_call_refuted). C59_ignored_refuted: once codes are loaded, a call without reinitialization gives the same for every id of codes that exist."
 ],
 "C60": [
  "proved",
  "For strictly increasing lists; where two occurrences of the merged pair meet, the occurrences must not overlap (choose_positions_to_merge sees to that): C60_both_overlap_refuted shows the function misses a pair otherwise. C60_both_exact says for all increasing lists what it finds: what lies between an occurrence and the very next one; C60_every_overlap_refuted: everything between two occurrences with a third in between is missed."
 ],
 "C62": [
  "partial",
  "Not true of the code without restriction: complete in all histories when written (C62_complete), nothing superfluous if no process was killed while writing a part (C62_exact); a kill while the vocabulary is written leaves it incomplete for ever (C62_killed_refuted), a kill while a part is written adds truncated tokens (C62_truncated_refuted). C62_learning: learning uses exactly the configurations for which these words are collected. C62_complete keeps the parts of different files apart; their names have only the base name and the time: C62_parts for savings of files with the same base name at different instants, C62_same_instant_refuted: two files with the same base name (__init__.py) that two processes save at the same instant have the same part, and the tokens of one are lost. C62_kept: whatever was saved, exactly the tokens of the files after which none of the same base name was saved at the same instant are gathered; C62_every_same_instant_refuted: every token that only an earlier one of two such files has is lost."
 ],
 "C63": [
  "partial",
  "Not true of the code without restriction: proved if all calls use one output path (C63_one_output), and for every output path for calls without vocabulary or whose vocabulary was not calculated before (C63_no_vocab_before); C63_second_output_refuted: preprocessing the same dataset with vocabulary for a second output path returns a corpus without files."
 ],
 "C64": [
  "partial",
  "Not true of the code without restriction: proved if all calls use one output path (C64_one_output); C64_second_output_refuted: with two output paths the size 0 of the corpus without files is reported for the complete one."
 ],
 "C66": [
  "partial",
  "Not true of the code without restriction: proved for texts whose parse does not end with a newline (C66_agree) and for configurations without newlines (C66_no_spaces); otherwise the corpus has exactly one more token, the newline (C66_newline, C66_refuted)."
 ],
 "C67": [
  "partial",
  "Not true of the code without restriction: proved for every content and every name whose extension is UTF-8 (C67_never_fails); C67_refuted: any other extension raises UnicodeDecodeError."
 ],
 "C68": [
  "partial",
  "Not true of the code without restriction: proved if the lexer gives no operator, punctuation, number or keyword with a space (C68_read_back); C68_import_static_refuted: the Java lexer has the keyword 'import static'."
 ],
 "C69": [
  "partial",
  "Not true of the code without restriction: proved for strings within the length limit, on parsed tokens without marks in their text (C69_groups) and for source texts (C69_text); C69_long_string_refuted: a string over the limit becomes two quotes without marks. C69_too_long_refuted: this is so for every string over the limit and every such configuration."
 ],
 "C70": [
  "proved",
  "For splits 0, 1 and 2, and for 3 without lowercasing if the external splitter only cuts, when nothing is left out or replaced (keeps_all); C70_identifier states it from the source text of an identifier."
 ],
 "C71": [
  "partial",
  "Not true of the code without restriction: proved for texts with a simple case whose numbers are in lower case (C71_spelling); C71_number_case_refuted: numbers are kept in lower case only. C71_case: for all numbers, character by character the same up to lower case."
 ],
 "C72": [
  "partial",
  "Not true of the code without restriction: proved if the lexer puts line ends into white-space tokens of their own and into no operator, punctuation, number or keyword (C72_lines), and tabs into tokens of their own (C72_tabs); indentation by blanks without such a condition (C72_indentation); C72_blank_lines_refuted: a white-space token of several line ends gives no newline at all; C72_tabs_refuted: several tabs in one token give fewer."
 ],
 "C73": [
  "partial",
  "Not true of the code without restriction: proved for every command line fitting the usage texts with a non-empty text and a non-empty id (C73_text, C73_corpus); C73_empty_text_refuted: with an empty text the command preprocesses a corpus at path None instead. docopt is not modelled; preprocess and preprocess_corpus are arbitrary functions here."
 ],
 "C74": [
  "proved",
  "The end mark is one token of type SpecialToken; to_repr without changes of the bpe cache."
 ],
 "C75": [
  "partial",
  "Not true of the code without restriction: proved for commands that run to their end, or are killed while learning for a dataset that has merges, with a supported configuration, a corpus with words to split, a name that is plain as a pattern and, if --id is given, an id no other dataset has (C75_learn, C75_usable); an id with more merges than the words allow is refused, which C75_usable says. C75_kept_refuted: the words that are not to be split are cached without the mark of the end of a word but looked up with it, so they are split like all others. C75_id_taken_refuted: --id is not checked against other datasets; C75_killed_refuted: the id of a dataset whose learning was interrupted is given away again; C75_id_refuted: after that --id is ignored. For all worlds and commands: C75_every_taken_id_refuted (an id that another dataset has leads to whichever is listed first), C75_every_id_ignored_refuted (--id has no effect on a dataset with an id)."
 ],
 "C76": [
  "partial",
  "Not true of the code without restriction: proved for every lexer token of a string or comment that is not white space only, wherever it is (C76_no_str, C76_no_com, C76_too_long, C76_within). Where the lexer delivers a string as one token this is the property; C76_parts_refuted, C76_parts_long_refuted, C76_parts_blank_refuted: where it delivers the quotes and the content as tokens of their own, as Python's does, each part gets its placeholder and its own length, and white space between quotes is not hidden. C76_every_part_refuted: so for every string in any number of parts; C76_blank_part_refuted: so for every part that is white space."
 ],
 "C77": [
  "partial",
  "Not true of the code without restriction: proved for histories as in C75 (C77_vocabularies, C77_bpe), with the parts of words as preprocessing makes them (C77_used); C77_merges: load_bpe_merges gives the first n merges; C77_number_refuted: the vocabulary of subwords is there only for the numbers of merges that were learned, not for the smaller ones that can be used; C77_no_vocabulary: for codes whose vocabulary was never made, because learning was killed or refused, every one of these is an error; words that are not to be split are counted as wholes although preprocessing splits them (C75_kept_refuted)."
 ],
 "C78": [
  "proved",
  "For words that do not end with a line feed, which is so for every word the program learns from as they end with '@' (C78_greedy and C78_runs have no such condition); C78_line_feed_refuted shows what the regular expression does otherwise."
 ],
 "C79": [
  "proved",
  "C79_restart requires that no vocabulary file was begun (C45_refuted otherwise), and that reading a truncated pickle raises EOFError (C44_truncated_refuted otherwise). A process that dies while it holds the lock of a queue is not modelled."
 ],
 "C80": [
  "partial",
  "Not true of the code without restriction: a number that is returned is right in all histories (C80_never_wrong), and calls one after the other that are not killed always return it (C80_one_by_one); C80_killed_refuted with C80_killed_reachable: after a kill between opening and writing the size file every later call raises ValueError; C80_at_the_same_time_refuted: so can a call at the same time as another one."
 ],
 "C81": [
  "partial",
  "Not true of the code without restriction: the results are right in all mixtures of runs (C81_result); C81_reused_refuted: after a run that ended regularly, no later run computes anything, whether caching was suppressed or not: the preprocessed dataset is marked as finished in any case, and parsed files that are there are skipped."
 ],
 "C82": [
  "partial",
  "Not true of the code without restriction: if no command is killed, the file is there and right when all have ended (C82_finally); one command after the other, with kills, never leaves a wrong file and never fails (C82_one_by_one). As all commands use the same temporary file: C82_error_refuted: one of two commands ends with FileNotFoundError; C82_complete_refuted: when a command has ended regularly its output can be empty; C82_forever_refuted: if the other one is killed then, it stays empty, and later commands take it for finished."
 ],
 "C83": [
  "partial",
  "Not true of the code without restriction: for calls one after the other, with kills, broken-off scans and changes of the dataset at any time: a list that is used is complete (C83_complete, C83_exact), and once it is marked all later calls use it (C83_same). C83_suppressed_refuted: with suppress_caching every stage scans anew, and preprocessing can meet a file that was not parsed. C83_at_the_same_time_refuted: a second command can empty a list that has just been marked in the same second; the next stage of the first one then has no files at all."
 ],
 "C84": [
  "partial",
  "Not true of the code without restriction: proved for all non-empty texts without blanks (C84_greedy, C84_same, C84_whole, C84_prefix). C84_blank_refuted: with blanks it fails or merges wrong pairs, as a pair is a string with a blank in between and run_from_text does not replace blanks; C84_empty_refuted: an empty text is a RuntimeError. Most often means: counting overlapping occurrences; the pair chosen need not be merged most often (C84_most_refuted)."
 ],
 "C85": [
  "partial",
  "Not true of the code without restriction: the merges are those of the textbook for the characters read (C85_file, C85_dir); a UTF-8 file, or one whose first chunk shows that it is not, is read as it is (C85_text). C85_twice, C85_refuted: if the error shows later, what was read before is there twice, and a short ISO-8859-1 file with an accented letter at its end suffices for that; C85_empty_refuted: an empty file or a directory without Python files is a RuntimeError."
 ],
 "C86": [
  "partial",
  "Not true of the code without restriction: proved from the tokens of the lexer to the output, for words whose characters have simple case, numbers in lower case, no token of the lexer that looks like a mark, and ronin only if its splitter keeps the text (C86_nosplit, C86_bpe, C86_basic, C86_differ). C86_number_case_refuted: numbers are put into lower case, so 0xFFL and 0xffl become the same. Words without simple case: C10. C86_nosplit_case, C86_bpe_case, C86_basic_case: without any condition on numbers every visible character of the source is there, in order, as it is or in lower case; C86_differ_case: texts with the same tokens and word boundaries differ in nothing visible but case."
 ],
 "C87": [
  "partial",
  "Not true of the code without restriction: proved (C87_files, C87_vocabulary) for extensions that are UTF-8, codes that load, tokens of the lexer without the characters at which files are split into lines other than newline (C68), and without modifications of files by others during the runs. The restrictions are necessary: C67, C68. Changes of a stage that has ended are covered as in C50."
 ],
 "C88": [
  "proved",
  "The splitter of spiral and the stemmer of nltk are parameters: parts of words without < are assumed to stay without it (C88_places), and the stemmer to put words into lower case first (C88_case). C88_ronin needs no assumption."
 ],
 "C89": [
  "partial",
  "Not true of the code without restriction: --legacy (C89_legacy) and that nothing is learned (C89_unsupported) for all options and states; C89_learns for all states that commands leave (those of C75). C89_refused_id_refuted: a refused command writes its id first; if the user then leaves out the option and asks for the same id, it depends on the order of the directories whether the merges that are learned are found."
 ],
 "C90": [
  "partial",
  "Not true of the code without restriction: proved for every state in which no two directories have the same id (C90_available), which is so in all histories of C75 (C90_history); C90_twice_refuted: if --id was given twice, the message lists numbers of merges that cannot be used."
 ],
 "C91": [
  "partial",
  "Not true of the code without restriction: proved for every tree with valid names (C91_files, C91_once; C91_single for a path that is a file), every content, schedule and interruption (C91_vocab, C91_nothing; with the processes of C42, which do not time out). C91_suffix_refuted: EXT is only the end of the name, a file happy is read for py although preprocessing leaves it out (C91_dot_refuted: so for every file whose name ends with EXT without a dot before it). C91_links_refuted: links to files are read (the file is counted twice) and linked directories are not, the other way round than in preprocessing (C91_file_links_refuted, C91_directory_links_refuted: every such link). C91_agree: all other files are treated alike by both. C91_tab_refuted: the words of raw files are written without escaping; if one has a tab the vocabulary cannot be loaded."
 ],
 "C92": [
  "partial",
  "Not true of the code without restriction: proved for every lexer output and configuration (C92_types). C92_non_english_refuted: whether a word has the type of non-English words depends on the options; C92_non_english says how, for every word and all options. C92_preprocessor_refuted: whatever the lexer puts below Comment, for example the directives of the C preprocessor, is a multi-line comment for codeprep; no_com hides these directives."
 ],
 "C93": [
  "partial",
  "Not true of the code without restriction: C93_one_after_the_other, C93_last, C93_exactly_one, C93_ends, C93_progress for all schedules, the entries of the queue being delivered at any time; C93_merger: the step of the merging processes in C42 is such a call. C93_zero_refuted: a decrement at zero waits with the lock held, so that the increment it waits for cannot happen (the merging processes never do this). C93_killed_refuted: if the system kills a process in a call, the others wait for ever. C93_every_killed_refuted: so it is for all programs and schedules, and whichever call the process was in. The setter of value is not modelled."
 ],
 "C94": [
  "partial",
  "Not true of the code without restriction: C94_language and C94_file_name for all texts and paths; C94_lexer_input, C94_spelling, C94_nosplit, C94_bpe, C94_basic, C94_file, C94_lines, C94_line_ends for every lexer that returns its text in pieces, with the conditions on letters and tokens of C71 and C86; C94_nosplit_case, C94_bpe_case, C94_basic_case, C94_file_case without the condition on numbers: each visible character is there as it is or in lower case. The lexers of Pygments are any functions; what they are given (Lexer.get_tokens) is modelled after its source. C94_not_guessed_refuted: the documentation of the API says that without an extension Pygments guesses the language; it is always java. C94_unknown_refuted: for an extension Pygments does not know it guesses, and there is a ValueError if it cannot. C94_edges_refuted: empty lines at the beginning and at the end are lost."
 ],
 "C95": [
  "partial",
  "Not true of the code without restriction: C95_where and C95_leaves for every run whose extensions and id have no slash, on a file system without links. C95_inside_refuted: by default the results go to the working directory; if this is the dataset, its time stamp is another one after each run, so that nothing is found again, and without an extension the results are read as sources the next time."
 ],
 "C96": [
  "partial",
  "Not true of the code without restriction: proved for whole outputs (C96_output), words (C96_word), files read up to two numbers of merges (C96_file) and learning (C96_learned), for lists without repeated pairs and texts to split without spaces, as the parser delivers them. C96_repeated_line_refuted: a file whose last line repeats a pair is accepted, and then words can be cut at other places. C96_text is C96_output for the tokens of a text; C96_characters: every splitting by bpe codes joins subtokens of the splitting into characters."
 ],
 "C97": [
  "partial",
  "Not true of the code without restriction: if several pairs are most frequent, the one whose count was last changed first is merged, which depends on the order of the words in the vocabulary file, which depends on the order in which the parts of the vocabulary were made (C97_ties_refuted: two computations of the same files by one process, with different merges learned). Proved for all runs: the files differ only in the order of equally frequent words (C97_vocabulary); limiting gives the same words (C97_limit); without ties the codes are the same, whatever was learned before (C97_codes)."
 ],
 "C98": [
  "partial",
  "Not true of the code without restriction: proved for configurations that hide strings or write them in pieces (C98_placeholders; basic splitting, and bpe with hidden strings). C98_string_refuted: where strings are kept whole, a part of a string, as Pygments returns them for f-strings, that reads <comment> cannot be told from a hidden comment in the output (the types in the metadata tell them apart, C92)."
 ],
 "C99": [
  "partial",
  "Not true of the code without restriction: C99_learn for all paths; C99_preprocessing for all paths that end with a name, on a file system without links. C99_slash_refuted: for preprocessing a slash at the end of the path makes it another dataset. C99_dot_refuted: a dataset given as a dot has no name, so that two datasets that were modified last in the same second share their results."
 ],
 "C100": [
  "proved",
  "C100_types for all pairs of configurations and all tokens; C100_words for those that keep the text (the conditions of C70; for bpe and chars the words are those of nosplit by C03). The restriction to strings that are treated alike is needed: C100_strings_differ, bpe writes a string as one token, the splitting of words writes its words."
 ],
 "C101": [
  "proved",
  "For characters with simple case (as in C86; ASCII is such a set, C101_ascii) that are lowered only if they are in upper case; the splitters of ronin and stemming see the words in lower case with no_case and may split them in another way, so they are left out. C101_options: the options of the API."
 ],
 "C102": [
  "proved",
  "For characters with simple case (as in C86) whose lower case is ascii if and only if they are, numeric literals of ascii characters, and splitters (ronin, stemming) that neither drop nor add the last non-ascii character; the bpe ways of splitting are the subject of C03_no_unicode_words and C15_runs_collapse, where words may also lose their case (C03_no_unicode_refuted). C102_options: the options of the API."
 ],
 "C103": [
  "partial",
  "Not true of the code without restriction: C103_together, C103_progress for all runs in which no command lists the directories while another one is writing its own; C103_kept and C103_ends for all runs. C103_while_saving_refuted: a command that looks while another one is saving reads the beginning of the list of merges and then the complete vocabulary; both commands end regularly, and the directory of the second lacks a merge and is no result of learning. The commands have their dataset and id already; that killed commands leave unusable directories is C75."
 ],
 "C104": [
  "proved",
  "Proved from the tokens of the lexer to the output (C104_output, C104_size), for single words (C104_word) and for the first n merges of a file (C104_file). Merge lists without repeated pairs and a cache that agrees with them, as everywhere for bpe (C18, C96); C104_ex reaches the bound."
 ],
 "C105": [
  "partial",
  "Not true of the code without restriction: C105_distinct, C105_stays, C105_given, C105_again, C105_progress for commands for different datasets whose names do not lead to the same id, if the ids that are there belong to codes with merges (a command killed before that leaves an id that is given again, C36_unfinished_refuted) and the names have no special characters of regular expressions (C36_special_refuted). C105_same_name_refuted: two datasets of the same name, learned at the same time, get the same id. C105_same_dataset_refuted: of two commands for the same new dataset one can replace the id that the other one has written, after that has ended."
 ],
 "C106": [
  "partial",
  "Not true of the code without restriction: C106_same and C106_finish for parsed and preprocessed files, C106_list for the lists of files of a dataset that does not change (a changed one: C83), C106_corpus for corpora of one output directory (C64), C106_word for kept splittings that are looked up once (C18_cached_word_refuted). A marker is removed with the files it stands for, and a stage that was changed since it was marked is removed as a whole. C106_output_refuted: the preprocessed dataset is not part of the cache; if it is removed after its vocabulary was calculated, the same call does not make it again and returns a corpus without files."
 ],
 "C107": [
  "partial",
  "Not true of the code without restriction: C107_kept (success), C107_others (success or failure), C107_stays (all later calls), C107_possible (when it succeeds). os.rename with its errors for existing targets, devices and directories below themselves. C107_device_refuted: if the output is on another device than the cache, os.rename always fails, so that the changed results can never be made anew: every later run ends with this error. C107_second_refuted: the same for results whose name and second of last change are those of something that was archived before, as with two output directories."
 ],
 "C108": [
  "partial",
  "Not true of the code without restriction: C108_right: whatever happens, no output file is wrong, and a command that has ended regularly has all of them. C108_parsed: none fails once the dataset has been parsed. C108_patient and C108_ends: none fails and each comes to its end if a command is started only when no other one is still parsing (the preprocessing may overlap, kills at any time, any earlier state, at least one file). C108_refuted: a second command that looks while the first one has opened its marker but not written it moves the parsed dataset away, and the first one fails. C108_reading_refuted: with three commands one that is preprocessing can fail. Writing a parsed file is one step here (the common temporary file: C82)."
 ],
 "C109": [
  "partial",
  "Not true of the code without restriction: C109_right: every output file belongs to what some run has read, and a run that ends has one for every file of the list. C109_all_found: no run fails if all files are found. C109_comes_back: a file that is missing does no harm if it is there again before a run has finished the parsing. C109_missing_refuted: if a file of the list is missing when it is to be parsed, the message says that it is ignored, but the run fails afterwards in preprocessing (there is no parsed file), and every later run as well, also if the file is there again, as the parsing is marked as finished. The name of the dataset is the same in all runs: if the time stamp of the dataset changes, everything is done anew (C53); removing a file from the top directory does not change it (C53_root_refuted)."
 ],
 "C110": [
  "partial",
  "Not true of the code without restriction: C110_listed: exactly the files to which a path over at most as many links leads as the system follows. C110_own and C110_distinct: every file under its own path, no name twice. C110_once: without links to directories each file exactly once. C110_inside: links that stay in the dataset add names, but no files. C110_stamp: the time stamp does not depend on how far links can be followed. C110_again_refuted: with one link to the dataset itself, its file is listed, parsed and written 41 times on a system that follows 40 links. C110_exponential_refuted: with two such links the list has 2^41 - 1 names for one file, so that the command does not end in any useful time. Paths are taken to be shorter than the system's limit of 4096 bytes."
 ],
 "C111": [
  "partial",
  "Not true of the code without restriction: C111_recovers: runs fail only because of files that cannot be read in them, and after any number of such runs and of kills the next one in which all files can be read does not fail and can end (with the right outputs by C109_right). C111_kept: what has been parsed and written stays. C111_others_refuted: only FileNotFoundError is caught; while there is one file that cannot be read for another reason (PermissionError, say), no run ends, and there is no output for any of the other files."
 ],
 "C112": [
  "partial",
  "Not true of the code without restriction: C112_exact: all names fit exactly if the directories given fit, the name of the directory with the results is 38 bytes shorter than the limit, every file name 12 bytes, and, where special tokens are collected, the written form of each output name has room for the time and 3 more. C112_fits: then a run does what it does without a limit. C112_width: the written form has between one and four characters for a byte, four for every byte of a letter that is not ASCII. C112_usual: conditions for a limit of 255 bytes. C112_long_refuted: a file with a name of 244 to 255 bytes stops the command. C112_letters_refuted: when special tokens are collected (learning bpe codes), a file name with 57 bytes of letters that are not ASCII does. C112_extensions_refuted: with extensions of 238 bytes together, separators counted, no dataset can be preprocessed. The limit of 4096 bytes for a whole path is not modelled."
 ],
 "C113": [
  "partial",
  "Not true of the code without restriction: C113_round_trip: the os functions are asked about the bytes that were given. C113_files: on a UTF-8 system for every path that is UTF-8, and in both locales for every ASCII path, the right files are listed and the outputs go to the directory that is made. C113_missing: a path where nothing is is an error. C113_bytes_refuted: on a UTF-8 system a path that is not UTF-8 is always a UnicodeEncodeError. C113_locale_refuted: in an ISO-8859-1 locale, for every path that is not ASCII str.encode() gives other bytes; if nothing is there, the dataset is taken for an empty one without an error, and outputs go to another directory than the one made and reported. Other encodings are not modelled."
 ],
 "C114": [
  "proved",
  "C114_split_numbers for all tokens of the parser, for characters with simple case (as in C86) whose case is the usual one for ascii letters. Numbers in comments and strings are the words that are number literals (C14); in code they are what the lexer takes for numbers. C114_options: split_numbers gives two such configurations, whatever the other options are. Digits in words like v12 belong to the words and stay together."
 ],
 "C115": [
  "proved",
  "C115_full_strings for all tokens of the parser; the non-processable tokens that are lost are those of strings. C115_verbatim: the text of a string within the limit (limits that can be encoded, see C40), for characters with simple case (as in C86). C115_options: full_strings gives two such configurations, whatever the other options are."
 ],
 "C116": [
  "partial",
  "Not true of the code without restriction: C116_encodes: for words without blanks (the tokeniser produces no others), by the textbook definition of S_Bpe, and spelling defined without to_char_list. C116_refused: a word that cannot be spelled is refused, and the whole vocabulary with it. C116_word: encode_word, for one word, gives the parts. C116_blank_refuted: in a word with a blank the blanks are lost, with every merge list, so that the word is not recovered. The progress bar for long words is not modelled."
 ],
 "C117": [
  "proved",
  "C117_tokens for all parsed tokens, by induction over the nesting; C117_configs for all valid configurations, as dictionaries in any order; C117_alike: equal tokens and configurations give the same output, metadata or error; C117_metadata: the non-processable tokens are compared as sets, as those of every complete preprocessing are. Comparisons with objects of other classes are not modelled."
 ]
}