-Q theories Verif
theories/M_Base.v
theories/L_Base.v
theories/M_Tokens.v
theories/M_Repr.v
theories/M_Literal.v
theories/M_Merge.v
theories/M_BpeEncode.v
theories/L_Literal.v
theories/L_Merge.v
theories/S_Bpe.v
theories/L_Bpe.v
theories/L_BpeEncode.v
theories/P_Merge.v
theories/P_MergeExact.v
theories/P_Bpe.v
theories/M_PrepConfig.v
theories/P_PrepConfig.v
theories/L_Repr.v
theories/P_Repr.v
theories/L_Word.v
theories/P_ReprOptions.v
theories/P_ReprStrings.v
theories/M_Regex.v
theories/M_Parse.v
theories/L_Regex.v
theories/P_Parse.v
theories/P_ParseRepr.v
theories/M_Iter.v
theories/P_Iter.v
theories/M_Learn.v
theories/P_Queue.v
theories/L_Learn.v
theories/P_Learn.v
theories/M_Registry.v
theories/P_Registry.v
theories/M_Vocab.v
theories/L_Vocab.v
theories/P_Coarse.v
theories/P_Repeat.v
theories/P_Forge.v
theories/P_Vocab.v
theories/M_Stats.v
theories/P_Stats.v
theories/M_Merger.v
theories/L_Merger.v
theories/P_Merger.v
theories/P_Losses.v
theories/M_Dataset.v
theories/P_Dataset.v
theories/M_Pipeline.v
theories/M_Corpus.v
theories/M_SizeFile.v
theories/P_Pipeline.v
theories/M_Parts.v
theories/P_Parts.v
theories/M_Timestamp.v
theories/P_Timestamp.v
theories/M_Wild.v
theories/P_Wild.v
theories/M_Api.v
theories/P_Api.v
theories/M_Files.v
theories/P_Files.v
theories/P_Lines.v
theories/P_Split.v
theories/P_Source.v
theories/P_Strings.v
theories/M_Cli.v
theories/P_Cli.v
theories/P_Eof.v
theories/M_BpeRun.v
theories/M_LearnTogether.v
theories/P_BpeRun.v
theories/M_LearnStr.v
theories/L_LearnStr.v
theories/P_LearnStr.v
theories/M_Learned.v
theories/P_Learned.v
theories/P_Loader.v
theories/P_Corpus.v
theories/P_SizeFile.v
theories/M_Together.v
theories/P_Together.v
theories/M_FileList.v
theories/P_FileList.v
theories/M_WildRun.v
theories/L_WildText.v
theories/L_WildLoc.v
theories/L_WildQueue.v
theories/L_WildStep.v
theories/L_WildNb.v
theories/L_WildMain.v
theories/M_WildFile.v
theories/P_WildRun.v
theories/P_Keep.v
theories/M_Whole.v
theories/P_Whole.v
theories/M_Stem.v
theories/P_Stem.v
theories/M_LearnCli.v
theories/P_LearnCli.v
theories/M_Available.v
theories/P_Available.v
theories/M_VocabScript.v
theories/P_VocabScript.v
theories/P_Types.v
theories/P_Escape.v
theories/M_Counter.v
theories/P_Counter.v
theories/M_Place.v
theories/P_Place.v
theories/P_Path.v
theories/P_Ways.v
theories/P_Case.v
theories/P_Unicode.v
theories/P_LearnTogether.v
theories/M_Lexer.v
theories/P_Lexer.v
theories/P_MergesFile.v
theories/P_Exact.v
theories/P_Closed.v
theories/M_Ids.v
theories/P_Ids.v
theories/P_Removed.v
theories/M_Archive.v
theories/P_Archive.v
theories/M_Shared.v
theories/P_Shared.v
theories/M_Missing.v
theories/P_Missing.v
theories/M_LinkCycle.v
theories/P_LinkCycle.v
theories/M_Names.v
theories/P_Names.v
theories/M_PathEnc.v
theories/P_PathEnc.v
theories/P_KeepCase.v
theories/P_Everywhere.v
theories/P_SplitNumbers.v
theories/P_FullStrings.v
theories/P_LexerCase.v
theories/P_EscapeRead.v
theories/P_QueueInit.v
theories/P_Collide.v
theories/M_EncodeDict.v
theories/P_EncodeDict.v
theories/P_Suffix.v
theories/M_MergeItem.v
theories/P_MergeItem.v
theories/P_Signs.v
theories/P_MergeSlice.v
theories/P_StringParts.v
theories/P_IdentifierCase.v
theories/P_Separator.v
theories/P_LastPart.v
theories/P_NoVocab.v
theories/M_Equal.v
theories/P_Equal.v
theories/P_WildBoth.v
theories/P_IdTaken.v
theories/P_SuffixRefused.v
theories/P_Touch.v
theories/P_LockHeld.v
