# Formal model of clipperhouse/jargon in Rocq (Coq 8.16.1)

The model is in `rocq/theories`. Every definition cites the file and lines of `/repo` it models.

## How Go is represented

| Go | Model |
|---|---|
| `string`, `[]byte` | Coq `string` (a finite list of bytes, any bytes) |
| `rune`, `for _, r := range s`, `WriteRune` | `N`, `Utf8.runes`, `Utf8.encode_rune` (exact Go UTF-8 rules, invalid bytes give U+FFFD) |
| `error`, `nil` error | `option string` |
| `*Token`, nil | `option token` (tokens are immutable, so pointer identity is not modelled) |
| a call | `outcome A` = returned `a`, panicked, or loop not finished within the given fuel |
| `*TokenStream` | coinductive object `TokenStream`: `Next` gives a result and the object's new state |
| `NewTokenStream(next)` | `NewTokenStream step x`: `step` the closure, `x` its captured variables |
| `for` loops | recursion on fuel; theorems say "for all sufficiently large fuel" and so include termination |
| Go map iteration | a list of entries in an arbitrary order; theorems quantify over orders |
| slices | lists; in `SliceQueue.v` real slices (array, offset, length, capacity) on a heap |
| goroutines, `sync.Once` | a small-step state machine over arbitrary schedules |

Observation of streams (`StreamSpec.v`), used in nearly all statements:
`Nexts s r s'` (a call of Next returns r), `Pulls s l s'` (|l| calls return the tokens l),
`Emits s l e s'` (calls return the tokens l, then the stream ends with error e or nil),
`Quiet s` (every further call returns nil, nil).

## What is outside /repo and how it enters

* Unicode tables (`unicode.IsPunct` etc.): record `unicode`, theorems hold for every table. `UnicodeData.go_unicode` is a concrete one (generated), used in examples, refutations and C37.
* Word segmentation (`uax29/words`): a scanner oracle with the contract "pieces are non-empty and concatenate to the text" (`Tokenizer.scanner_ok`). The oracle stays at its error once it has returned one; the modelled bufio.Scanner (`Scanner.v`) does not always (C92_tokenizer). `Words.words_scan` is a concrete one that follows UAX #29 and is proved to fulfil the contract; it is used in examples and refutations, and stands for the package in the theorems C64, C65, C70, C76, C77, C79, C80 and C81.
* `x/net/html`: the sequence of HTML tokens (type, atom, String()) and the final error.
* snowball stemmers and x/text normal forms: arbitrary functions with the stated contract.
* gofmt: changes only the layout of a declaration (`RenderSpec.formatter_ok`). `strconv.IsPrint`: any set without control characters and U+FEFF. fmt sorts the keys of a map: a list, its order is kept.
* `flag`, afero, OS, net/http, html/template: only as far as the property needs, stated in each file.

## Plan per property

Each property theorem is in a `Prop*.v` file that holds nothing but property theorems, examples that their hypotheses are
met, and `Print Assumptions`. The vocabulary of the statements is in the `*Spec.v` files, the proofs are in the other files.

| Id | Model | Vocabulary | Theorems | Proof |
|---|---|---|---|---|
| C01, C02 | Token.v, Utf8.v | ListSpec.v | PropToken.v | TokenProofs.v, Utf8Proofs.v: case analysis, induction over runes and bytes, cache entries by computation |
| C03 - C09 | Stream.v | StreamSpec.v, ListSpec.v | PropStream.v | StreamProofs.v, PropStreamLemmas.v (facts about strings: StringProofs.v): induction over `Emits`, `Pulls` and histories of calls |
| C10 - C12 | all filters | ChainSpec.v | PropChain.v | ChainProofs.v: one law per filter, induction over the chain |
| C13, C15, C16 | Tokenizer.v, Html.v | FilterSpec.v | PropTokenizer.v | PropTokenizerLemmas.v: induction over scanner output, invariant over HTML tokens; C16 is refuted (parent is never reset) |
| C14 | Scanner.v, WordSplit.v | ScannerSpec.v | PropScanner.v | ScannerProofs.v, WordSplitProofs.v: model of the stdlib scanner loop, invariant of its buffer, induction over reads |
| C17 - C19, C25 - C28, C31 - C33 | Filters.v, ContractionsTable.v (generated from generated.go) | FilterSpec.v, NilSpec.v (C19) | PropFilters.v, PropNil.v (C19) | FilterProofs.v, PropFiltersLemmas.v, PropSigilLemmas.v, PropNilLemmas.v: induction over `Emits`, with the queue and the previous token as state |
| C32 (every text), C67, C68 | Filters.v, Ascii.v | FilterSpec.v | PropTwitter.v | PropTwitterLemmas.v: the output of a sigil filter as a function of the list, induction over the list two tokens at a time |
| C20 - C24 | Ascii.v, AsciiTable.v (generated from fold.go), LuceneTable.v (generated from the Java file) | FilterSpec.v | PropAscii.v, PropExactly.v (C23) | AsciiProofs.v, PropAsciiLemmas.v: table facts by computation over the finite table, lifted; induction over runes |
| C29 | ContractionsGen.v | GenProofs.v (top) | PropGen.v | GenProofs.v: computation over the base table, permutation argument for the order |
| C30 | Filters.v, Synonyms.v | FilterSpec.v | PropChain.v | PropSynLemmas2.v |
| C34 - C36, C38 - C42 | Trie.v, Synonyms.v | SynSpec.v | PropSynonyms.v | TrieProofs.v (the trie refines a finite map), BuildProofs.v, SynProofs.v (buffer and source against the unread tokens), PropSynLemmas*.v |
| C37 | Dictionaries.v, SoTable.v, NbaTable.v (generated) | DictSpec.v | PropDictionaries.v | DictProofs.v: computation over the finite table, lifted to all orders and scanners |
| C43, C44 | Once.v | OnceSpec.v | PropOnce.v | OnceProofs.v: invariant over all schedules |
| C45 - C47 | Queue.v, SliceQueue.v, Cost.v | QueueSpec.v, CostSpec.v | PropQueue.v | QueueProofs.v, PropQueueLemmas.v, CostProofs.v: refinement of heap slices to lists; sums of costs |
| C48 - C55, C59 | Cli.v | CliSpec.v | PropCli.v | CliProofs.v, PropCliLemmas*.v: case analysis over file system and arguments, invariant of bufio.Writer; writes to standard output and to files may fail at any point |
| C56 - C58 | Web.v | WebSpec.v | PropWeb.v, PropExactly.v (C57) | PropWebLemmas.v: induction over `Emits` |
| C60 - C63 | Generators.v | GenSpec.v, SoSpec.v (C63) | PropGenerators.v, PropExactly.v (C62) | GeneratorProofs.v (runes and trimming, maps), SoGenProofs.v (invariants over tags and pages), SoExact.v (the words of the map, as a list over the pages), PropGeneratorsLemmas.v (shipped tables by computation) |
| C64, C65 | Trie.v, Synonyms.v, Dictionaries.v | SynSpec.v, DictSpec.v | PropSynonyms2.v | PropSynLemmas4.v (from C38 - C40, induction over the replacement), PropSynLemmas5.v (the shipped tables by computation) |
| C66 | Render.v | RenderSpec.v (string literals and map literals of Go) | PropRender.v | RenderProofs.v (quoting gives a literal), RenderLayout.v (what each of the three replacements finds in a literal and around it), PropRenderLemmas.v (a source declares one map only), RenderExact.v (which strings that are; no parse after a line break in a literal; the shipped tables by computation) |
| C69 | Decl.v | DeclSpec.v (lexical elements of Go), RenderSpec.v | PropDecl.v | PropDeclLemmas.v: a text can be read as a node in only one way (induction over nodes), searches do not depend on the order of children |
| C70 | Tokenizer.v, Words.v, Filters.v, Ascii.v, Synonyms.v | LineSpec.v | PropLines.v | WordLineProofs.v (no rule joins across a line end), PropLineLemmas.v: each filter commutes with cutting at a line end, then induction over the chain and the lines |
| C71 | Stream.v, Filters.v | OrderSpec.v | PropOrder.v, PropExactly.v | PropOrderLemmas.v: the filters as list functions; first occurrences and selection commute; exactly when: PropExactly.v |
| C72, C73 | Trie.v, Synonyms.v | SynSpec.v, OrderSpec.v | PropOrder.v | PropOrderLemmas.v, PropWiderLemmas.v: induction over `rewrites` |
| C74 | Cli.v (flag_Parse, get_bool, get_string) | FlagSpec.v | PropFlags.v | PropFlagLemmas.v: induction over the arguments |
| C75 | Web.v | WebSpec.v | PropWeb.v | PropWebLemmas.v: no step changes the headers sent |
| C76 | Words.v, Tokenizer.v | StreamSpec.v | PropStable.v | WordStable.v: a boundary does not depend on what is before the previous one, nor on what is after the next |
| C77 | Synonyms.v, Dictionaries.v | SynSpec.v, CanonSpec.v (list of exceptions) | PropStable.v | PropStableLemmas.v: the filter as a function of the table, evaluated on every term |
| C78 | Cli.v, Html.v | OutputSpec.v | PropOutput.v, PropOutLines.v | PropOutputLemmas.v: no filter makes a token with a line feed inside; induction over the listings; PropOutLinesLemmas.v: the process prints that listing |
| C79 | Filters.v, ContractionsTable.v | ExpandSpec.v | PropExpand.v | PropExpandLemmas.v: the table is closed under apostrophes and functional up to writing |
| C80 | Filters.v, Words.v | StreamSpec.v | PropExpand.v | WordJoin.v: words that begin and end with a letter can be exchanged without moving a boundary; the table has only such |
| C81 | Ascii.v, Words.v | StreamSpec.v | PropExpand.v | PropRefoldLemmas.v: the characters of the folded text are those of the folded tokens |
| C82 | Aliasing.v (arguments as variables of the caller), Filters.v, Synonyms.v | AliasSpec.v | PropAlias.v | PropAliasLemmas.v: induction over the operations; witnesses by evaluation |
| C83 | Shared.v (streams as objects that refer to each other) | SharedSpec.v | PropShared.v | PropSharedLemmas.v: a call takes from the source up to the first token that passes; induction over depth and calls |
| C84 | Filters.v, Ascii.v, ContractionsTable.v | ExpandSpec.v | PropExpand.v | PropFoldExpandLemmas.v: folding of plain contractions and of expansions, checked on the table; PropFoldExpandExact.v: exactly when (lengths of the outputs) |
| C85 | Process.v (exit status, standard error), Cli.v | ProcessSpec.v | PropProcess.v | PropProcessLemmas.v: main reaches execute with everything set up; C51 and C52 for the rest |
| C86 | Aliasing.v | ReuseSpec.v | PropReuse.v | PropReuseLemmas.v: induction on the operations; the filter does not change after the first application |
| C87 | Filters.v, Synonyms.v, Stream.v | OriginSpec.v | PropOrigin.v | PropOriginLemmas.v: the relation is closed under composition; per filter from C06, C08, C17, C18, C31, C38 |
| C88 | Dictionaries.v, NbaTable.v, Ascii.v, Synonyms.v | PlayersSpec.v | PropPlayers.v | PropPlayersLemmas.v: the names in the table checked by computation; PropExactLemmas.v: exactly what is replaced as a whole |
| C89 | Stream.v, Filters.v, Synonyms.v, Ascii.v | SimSpec.v | PropSim.v | PropSimLemmas.v: a relation between fuelled computations preserved by bind and by loops; coinduction over closures; PropSimLemmas2.v: observations, examples |
| C90 | BufReader.v, Scanner.v, Cli.v | ScannerSpec.v, SimSpec.v | PropArrive.v | PropArriveLemmas.v: bufio.Reader preserves what is delivered; the buffered tokenizer simulates the tokenizer over pieces; C89; the writing loop is a relation-preserving loop |
| C91 | Scanner.v, WordSplit.v | ScannerSpec.v | PropLong.v | PropLongLemmas.v: invariant of the buffer; the word rules look no further than the next word |
| C92 | Synonyms.v, Filters.v, Scanner.v | FinalSpec.v | PropFinal.v | PropFinalLemmas.v: coinduction on the captured state; the loop of the synonyms filter over a failing source |
| C93 | Ascii.v, Filters.v | ComposeSpec.v, DecompTable.v | PropCompose.v | PropComposeLemmas.v: combining marks are counted; the table is checked by computation |
| C94 | Filters.v, Trie.v, Unicode.v, Words.v | CaseSpec.v, UpperTable.v | PropCase.v | PropCaseLemmas.v: all letters with a capital are enumerated (UpperTable.v); synonyms by C72, contractions by C79; the words by a simulation of the segmenter on letters of the same class |
| C95, C96 | Filters.v, Words.v, Tokenizer.v | TextSpec.v | PropText.v | PropTextLemmas.v, WordAlone.v: when two texts are cut at their joint, in terms of the characters on both sides; the sigil filter is cut where a token is no word |
| C97 | Filters.v, ContractionsTable.v, Words.v | TextSpec.v, ExpandSpec.v | PropText.v | PropContractLemmas.v: every contraction in every writing is letters with single apostrophes between them, hence one word |
| C98 | Filters.v, Synonyms.v, Words.v | SentenceSpec.v, TextSpec.v | PropSentence.v | PropSentenceLemmas.v: each filter passes on a token that is no word and goes on as at the beginning (as for line ends, C70); boundaries around the mark and the space by the rules of segmentation |
| C99 | Process.v, Cli.v | PipeSpec.v, CliSpec.v, ProcessSpec.v | PropPipes.v | PropPipeLemmas.v: what a command prints from C85; the output of a chain depends on the tokens of its source only (C38 for synonyms); then C80, C81 |
| C100 | Synonyms.v, Trie.v, Dictionaries.v | ApartSpec.v, SynSpec.v | PropApart.v | PropApartLemmas.v: no match reaches over a separating token (window_app); by induction over `rewrites` of C38; the shipped dictionaries with C64 |
| C101 | Ascii.v, Words.v | FilterSpec.v | PropWhole.v | PropWholeLemmas.v: the runes of the text are those of its words, also after folding (C81's `folded_chunks`), word by word the same number of them |
| C102 | Serve.v, Once.v, Web.v | ServeSpec.v | PropServe.v | PropServeLemmas.v: after C43 the fields no longer change, so the stream that reads them afresh at every Next is the stream of one complete build; by C37 the same one for all orders |
| C103 | Html.v, Filters.v, Ascii.v, Synonyms.v | MarkupSpec.v | PropMarkup.v | PropMarkupLemmas.v: a punctuation token that begins with < is neither legal after a sigil nor in the table of contractions, and C39 cuts synonyms there; induction over the filters |
| C104 | Ascii.v, Filters.v, Synonyms.v, tables | SizeSpec.v | PropSize.v | PropSizeLemmas.v: the ratios of all table entries by computation, induction over the decoding, over the tokens and over the rewriting of C38; a text that attains each factor |
| C105 | Tokenizer.v, Words.v, Filters.v, Synonyms.v | EndSpec.v, LineSpec.v | PropEnd.v | PropEndLemmas.v: cut the text at every CR LF and use C70 for either line end |
| C106 | Web.v, Cli.v, Process.v | AgreeSpec.v, WebSpec.v, PipeSpec.v | PropAgree.v | PropAgreeLemmas.v: both are given by the tokens of the same chain (C56, C85); the spans of a page are read off the escaped texts, which contain no `<` |
| C107 | Filters.v, Synonyms.v | MergeSpec.v, NilSpec.v | PropMerge.v | PropMergeLemmas.v: each filter is a function of the token list, and the functions compose; C73 for the synonyms |
| C108 | Stream.v, Tokenizer.v, Words.v, Filters.v, Ascii.v, Synonyms.v | StreamSpec.v, ChainSpec.v | PropRest.v | PropRestLemmas.v: every filter has, for every list of tokens, an output that it delivers before an error and before anything that follows; chains by composition; C76 for texts |
| C109 | Cli.v, Process.v | CliSpec.v, OutputSpec.v, PipeSpec.v | PropTally.v | PropTallyLemmas.v: the process prints the length of the list of C51; C78 for the number of lines, C08 for -distinct |
| C110 | Stream.v, Filters.v, Ascii.v, Synonyms.v, Cli.v | TallySpec.v, ChainSpec.v, PipeSpec.v | PropNumber.v | PropNumberLemmas.v: one-to-one filters are maps; C87 for the others; the table of contractions by computation; C108 carries the bound over to failing streams |
| C111 | Stream.v, Filters.v, Synonyms.v | BareSpec.v | PropBare.v | PropBareLemmas.v: the functions of lists are identities; C38 with an empty dictionary, C42 for failing streams |
| C112 | Stream.v, Filters.v, Synonyms.v, SoTable.v, Words.v | DocSpec.v | PropDoc.v | PropDocLemmas.v: the examples alone are computed with the table (C100 for the filter as a function of lists); C98 for the sentences around |

## Findings

A property that is false of the code has a `Cnn_refuted` theorem with a concrete witness, and a `_partial` theorem with what does
hold. Its status in MANIFEST.json is "partial" and the note begins with REFUTED.

| Id | What the code does |
|---|---|
| C16 | tokenizer_html.go:76-78 clears the local token's atom instead of the tokenizer's parent: after a script or style start tag no later text is tokenized |
| C19 | a mapping function that returns nil ends the stream for all consumers; with a second function it panics |
| C20, C21 | two arms of fold.go do not set `folded` (U+2053, U+FF5E) |
| C22 | U+02A8 folds to "tr", in the Java original to "tc" |
| C23 | an invalid byte becomes U+FFFD when another rune of the string is folded |
| C30 | the words of an expanded contraction are not lemmas |
| C32 | `@@foo`, and a handle after a sigil with an illegal name, are not recognised |
| C40 | an ignored character that is punctuation ends the run of words |
| C41 | the synonyms filter reads its whole source in its first Next |
| C42 | the synonyms filter loses all tokens before a read error, sigil filters a last sigil |
| C44 | a failed dictionary build is reported only to the call that ran it; other streams panic |
| C46 | `New(xs...)` shares the caller's slice, and Pop and Drop write to it |
| C47 | the synonyms filter moves a quadratic number of queue elements |
| C50 | setFilters looks at the raw arguments: `--stack` and `-stack=true` select nothing, the value in `-out -stack` does |
| C52 | what is in the output buffer is not written when the input fails |
| C54 | `-file x -out x` empties x before it is read |
| C57 | a NUL byte is rendered as U+FFFD |
| C62 | a tag named "drop-down" gets past the generator's exceptions: its dash is replaced before it is looked up |
| C63 | a tag that only a later page lists as a synonym of another is in the generated map twice, for both tags |
| C64 | 45 synonyms listed by Tags and 30 names of players are never recognised, because they contain punctuation (".net", "c#", "Al-Farouq Aminu") or end in ignored characters; the repository's test for "C#" passes because "C" is replaced by "c" |
| C65 | Tags applied to its own output may replace more ("bash script profile", "bash profile", "bash") |
| C66 | the generators break lines by replacing `{"`, `", "` and `"}` in the source, also inside string literals; gofmt then rejects the source |
| C68 | in `@#b@x` Handles after Hashtags finds `@x`, Hashtags after Handles does not |
| C69 | String and Decl of a synonyms filter, documented to return Go source, do not escape runes, and name types and fields that do not exist (trie.Node, Root, ...) |
| C71 | Lemmas after Distinct drops lemmas whose text occurred before as an ordinary token |
| C73 | adding an unrelated synonym of many words changes which texts are recognised as other synonyms: `r u b y` becomes ruby |
| C77 | Tags changes 236 of its own canonical terms, e.g. google-chrome into google-google-chrome (chrome is a synonym, google-chrome is not listed as its own) |
| C78 | jargon -html -distinct -lines prints the same for different tokens, as text nodes after a script may contain line feeds |
| C82 | Changing the map given to synonyms.NewFilter before the filter is first used changes the filter; changing the slice given to mapper.NewFilter changes it at any time |
| C84 | -ascii and -contractions do not commute: `dön't` folded first is expanded into `do not`, expanded first it stays as don't |
| C85 | jargon without input prints its usage as an error message but has exit status 0; jargon -version does not notice when it cannot print |
| C86 | a synonyms filter that cannot be built: the error is reported on the first stream only, later streams behave as if built (see C44, here without goroutines) |
| C87 | contractions.Expand adds tokens that are not lemmas, so after it a token that is not a lemma need not occur in the source (see C30) |
| C88 | nba.CurrentPlayers is documented to be insensitive to dashes, apostrophes and diacritics: it knows names with all diacritics and with none, but not `Luka Dončic`; `De’Aaron Fox` with a curly apostrophe and `Luka-Dončić` are not recognised either |
| C91 | a word of more than 64 kB (encoded data, say) ends Tokenize with the error `bufio.Scanner: token too long`; the rest of the text is not tokenized |
| C92 | a caller that goes on after an error is misled: a synonyms filter then delivers the tokens it withheld, or replaces the error by `expected buffer to be empty`; Tokenize delivers tokens after `token too long` |
| C93 | decomposed letters (e followed by U+0301) are not folded, nor are names written with them recognised; norm.NFC has to be applied before ascii.Fold |
| C94 | `ignoreCase` lower-cases rather than folds case: a Greek stop word or synonym with a final sigma is not recognised in capital letters, nor are words with one of 22 other letters (long s, micro sign, ...) |
| C95 | `@bob's` and `@bob.Then` (no space after the full stop) are not recognised as handles, as the words are `bob's` and `bob.Then` |
| C96 | hashtags in Chinese, Japanese (hiragana), Thai, Lao, Khmer or Burmese are never recognised beyond the first character: `#東京` becomes `#東` and `京`, although `legalHashtag` admits these letters |
| C97 | `can't.He` is one word and stays as it is |
| C99 | `jargon -ascii \| jargon -lines` prints other lines than `jargon -ascii -lines`: `⑴` folds to `(1)`, one token in one process and three for the second |
| C101 | ascii.FoldString of a text and ascii.Fold of its tokens differ: `é ～` becomes `e ~` and `e ～` |
| C103 | ascii.Fold replaces characters in the tags of an HTML document as well: `<p title="é">` becomes the lemma `<p title="e">` |
| C107 | two synonyms filters replace again what the first has put in: with "b" for "a" and "c" for "b", "a" becomes "c", with one filter "b"; one mapper panics where two end the stream |
| C108 | when reading fails within a word, the beginning of the word is put out as a word of its own: with the stop word `them`, a text that fails after `the` puts out `the`, the complete text nothing |
| C109 | a line end is one token for -count, but printed as two lines with -lines |
| C111 | a synonyms filter for an empty map loses all tokens read before an error, although it has nothing to replace |
| C112 | the comments of the contractions package (filters/contractions/filter.go:1, 14) say that "don't" becomes "does not"; it becomes "do not" |

## Trusted base

* Coq's kernel (8.16.1), with its virtual machine: several table facts are proved with `vm_compute`. No kernel check is switched off.
* Axioms: `Print Assumptions` says "Closed under the global context" for every property theorem (it stands below each theorem in
  the `Prop*.v` files). No axiom is declared in the development. vcheck lists seven fields of a module type in Coq's own `ssrunder`
  library, which other files of the standard library load; no theorem depends on them.
* The model: that the definitions say what the cited Go code does. Go itself (semantics of range over strings, slices, maps, append, closures,
  method calls on nil) and the parts of the standard library listed above are modelled from their documentation and source.
  `RepoTests.v` and `RepoTests2.v` replay unit tests and README examples of the repository on the model, as a test of the model.
* The generated tables: `tools/gen_tables.py` reads fold.go, ASCIIFoldingFilter.java and the three generated.go files;
  `tools/gen_unicode.pl` writes the Unicode tables from Perl's, `tools/gen_decomp.py` the decompositions of C93 from Python's, `tools/gen_upper.pl` the capital letters of C94 from Perl's.
* Statements: the `*Spec.v` files.

### What is modelled

| File in /repo | Modelled | Not modelled |
|---|---|---|
| token.go, punct.go, tokenstream.go, tokenizer.go, tokenizer_html.go | all | overflow of int and int64 counters; sharing one stream between streams other than those of Where, Words and Lemmas (Shared.v) |
| tokenqueue/queue.go | all, as lists (Queue.v) and as slices (SliceQueue.v), String (Decl.v) | |
| filters/ascii, contractions, mapper, norm, sigil, stemmer, stopwords, twitter | all | the stemming and normalization libraries (arbitrary functions) |
| filters/synonyms, synonyms/trie | all, with the concurrency of sync.Once, String and Decl (Decl.v) | |
| filters/stackoverflow, filters/nba | filter, tables, generators | the generators' fetching (http, goquery, JSON) |
| filters/contractions/generate | all | |
| cmd/jargon/main.go | all | Close (its errors are ignored); the text of flag.PrintDefaults (a parameter) |
| web/main.go | the handlers, the choice of the handler, the address | the server of net/http and path cleaning by its multiplexer, logging |

Memory is unbounded and Go programs do not run out of stack; panics of the standard library other than those cited do not occur.
Performance is covered only as far as C47 says (elements moved by queue operations).

## Tests against wrong programs

`tools/mutate.py` edits one definition of the model in a scratch copy, rebuilds, replaces (there) each lemma whose proof fails by an
admitted one until everything compiles, and asks `Print Assumptions` which property theorems depend on one of those.
`seeded/LOG.jsonl` has one line per edit. `theorems_failed` are the theorems whose proofs no longer go through.
