-Q theories Verif
theories/Base.v
theories/Utf8.v
theories/Unicode.v
theories/Token.v
theories/Stream.v
theories/StreamSpec.v
theories/StringProofs.v
theories/StreamProofs.v
theories/Utf8Proofs.v
theories/ListSpec.v
theories/TokenProofs.v
theories/Queue.v
theories/Tokenizer.v
theories/Html.v
theories/Filters.v
theories/Trie.v
theories/Synonyms.v
theories/SynSpec.v
theories/TrieProofs.v
theories/SynProofs.v
theories/BuildProofs.v
theories/UnicodeData.v
theories/Words.v
theories/AsciiTable.v
theories/LuceneTable.v
theories/ContractionsTable.v
theories/SoTable.v
theories/NbaTable.v
theories/Ascii.v
theories/RepoTests.v
theories/Sources.v
theories/PropToken.v
theories/PropStreamLemmas.v
theories/PropStream.v
theories/FilterProofs.v
theories/WordsProofs.v
theories/FilterSpec.v
theories/AsciiProofs.v
theories/PropTokenizerLemmas.v
theories/PropTokenizer.v
theories/PropAsciiLemmas.v
theories/PropAscii.v
theories/PropFiltersLemmas.v
theories/PropSigilLemmas.v
theories/PropFilters.v
theories/ChainSpec.v
theories/ChainProofs.v
theories/PropSynLemmas.v
theories/PropSynLemmas2.v
theories/PropSynLemmas3.v
theories/PropChain.v
theories/PropSynonyms.v
theories/Dictionaries.v
theories/DictSpec.v
theories/DictProofs.v
theories/PropDictionaries.v
theories/ContractionsGen.v
theories/GenProofs.v
theories/PropGen.v
theories/Once.v
theories/OnceSpec.v
theories/OnceProofs.v
theories/PropOnce.v
theories/SliceQueue.v
theories/QueueSpec.v
theories/QueueProofs.v
theories/PropQueueLemmas.v
theories/Cost.v
theories/CostSpec.v
theories/CostProofs.v
theories/PropQueue.v
theories/Scanner.v
theories/ScannerSpec.v
theories/ScannerProofs.v
theories/WordSplit.v
theories/WordSplitProofs.v
theories/PropScanner.v
theories/Cli.v
theories/CliSpec.v
theories/CliProofs.v
theories/PropCliLemmas.v
theories/PropCliLemmas2.v
theories/PropCli.v
theories/Web.v
theories/WebSpec.v
theories/PropWebLemmas.v
theories/PropWeb.v
theories/Generators.v
theories/GenSpec.v
theories/GeneratorProofs.v
theories/SoSpec.v
theories/SoGenProofs.v
theories/SoExact.v
theories/PropGeneratorsLemmas.v
theories/PropGenerators.v
theories/PropSynLemmas4.v
theories/PropSynLemmas5.v
theories/PropSynonyms2.v
theories/Render.v
theories/RenderSpec.v
theories/RenderProofs.v
theories/PropRenderLemmas.v
theories/RenderLayout.v
theories/RenderExact.v
theories/PropRender.v
theories/PropTwitterLemmas.v
theories/PropTwitter.v
theories/Decl.v
theories/DeclSpec.v
theories/PropDeclLemmas.v
theories/PropDecl.v
theories/LineSpec.v
theories/WordLineProofs.v
theories/PropLineLemmas.v
theories/MarkupSpec.v
theories/PropMarkupLemmas.v
theories/PropMarkup.v
theories/SizeSpec.v
theories/PropSizeLemmas.v
theories/PropSize.v
theories/EndSpec.v
theories/PropEndLemmas.v
theories/PropEnd.v
theories/PropLines.v
theories/OrderSpec.v
theories/PropOrderLemmas.v
theories/PropOrder.v
theories/FlagSpec.v
theories/PropFlagLemmas.v
theories/PropFlags.v
theories/WordStable.v
theories/WordJoin.v
theories/CanonSpec.v
theories/ExpandSpec.v
theories/PropExpandLemmas.v
theories/OutputSpec.v
theories/PropOutputLemmas.v
theories/PropStableLemmas.v
theories/PropRetextLemmas.v
theories/PropRefoldLemmas.v
theories/PropStable.v
theories/PropExpand.v
theories/PropOutput.v
theories/Aliasing.v
theories/AliasSpec.v
theories/PropAliasLemmas.v
theories/Shared.v
theories/SharedSpec.v
theories/PropSharedLemmas.v
theories/PropFoldExpandLemmas.v
theories/PropFoldExpandExact.v
theories/PropAlias.v
theories/PropShared.v
theories/Process.v
theories/ProcessSpec.v
theories/PropProcessLemmas.v
theories/PropProcess.v
theories/RepoTests2.v
theories/ReuseSpec.v
theories/PropReuseLemmas.v
theories/PropReuse.v
theories/OriginSpec.v
theories/PropOriginLemmas.v
theories/PropOrigin.v
theories/PropExactLemmas.v
theories/PlayersSpec.v
theories/PropPlayersLemmas.v
theories/PropPlayers.v
theories/SimSpec.v
theories/PropSimLemmas.v
theories/PropSimLemmas2.v
theories/PropSim.v
theories/BufReader.v
theories/PropArriveLemmas.v
theories/PropArrive.v
theories/PropLongLemmas.v
theories/PropLong.v
theories/FinalSpec.v
theories/PropFinalLemmas.v
theories/PropFinal.v
theories/DecompTable.v
theories/ComposeSpec.v
theories/PropComposeLemmas.v
theories/PropCompose.v
theories/UpperTable.v
theories/CaseSpec.v
theories/PropCaseLemmas.v
theories/PropCase.v
theories/PropExactlyLemmas.v
theories/PropExactly.v
theories/PropWiderLemmas.v
theories/TextSpec.v
theories/WordAlone.v
theories/PropTextLemmas.v
theories/PropContractLemmas.v
theories/PropText.v
theories/SentenceSpec.v
theories/PropSentenceLemmas.v
theories/PropSentence.v
theories/PipeSpec.v
theories/PropPipeLemmas.v
theories/PropPipes.v
theories/PropOutLinesLemmas.v
theories/PropOutLines.v
theories/PropTallyLemmas.v
theories/PropTally.v
theories/TallySpec.v
theories/PropNumberLemmas.v
theories/PropNumber.v
theories/BareSpec.v
theories/PropBareLemmas.v
theories/PropBare.v
theories/DocSpec.v
theories/PropDocLemmas.v
theories/PropDoc.v
theories/ApartSpec.v
theories/PropApartLemmas.v
theories/PropApart.v
theories/PropWholeLemmas.v
theories/PropWhole.v
theories/NilSpec.v
theories/PropNilLemmas.v
theories/PropNil.v
theories/Serve.v
theories/ServeSpec.v
theories/PropServeLemmas.v
theories/PropServe.v
theories/AgreeSpec.v
theories/PropAgreeLemmas.v
theories/PropAgree.v
theories/MergeSpec.v
theories/PropMergeLemmas.v
theories/PropMerge.v
theories/PropRestLemmas.v
theories/PropRest.v
