{"id": "C01", "title": "NewToken classifies every string exactly", "statement": "NewToken(s, isLemma) returns nil iff s is empty. Otherwise the token's String() is s verbatim, IsLemma() is isLemma, IsPunct() holds iff every rune of s is Unicode punctuation or one of newline, carriage return, tab, and IsSpace() holds iff every rune of s is Unicode white space. The internal cache of common tokens and the CRLF special case never change the answer.", "quantifier": "every byte string (valid UTF-8 or not), both lemma flags, every Unicode table", "why_tests_cant": "strings are unbounded; a wrong cached entry or special case shows up only for particular strings", "anchors": ["token.go: NewToken, common, init", "punct.go: isPunct, spaceIsPunct"]}
{"id": "C02", "title": "Rune iteration and WriteRune round-trip exactly the valid UTF-8 strings", "statement": "Re-encoding the runes that ranging over s yields gives back s if and only if s is valid UTF-8; each invalid byte is seen as U+FFFD.", "quantifier": "every byte string", "why_tests_cant": "the byte-string space is unbounded; boundary bytes of the encoding are easy to miss", "anchors": ["filters/ascii/fold.go: FoldString", "token.go: NewToken", "filters/synonyms/trie/trie.go: Add, SearchCanonical"]}
{"id": "C03", "title": "Token() and Err() always reflect the last Next or Scan", "statement": "After any sequence of calls of Next and Scan on a stream made by NewTokenStream, Token() and Err() are exactly what the most recent call obtained, and Scan returned true iff it obtained a token and no error.", "quantifier": "every underlying next function, every finite history of Next/Scan calls", "why_tests_cant": "histories are unbounded and mix the two ways of iterating", "anchors": ["tokenstream.go: NewTokenStream, Next, Scan, Token, Err"]}
{"id": "C04", "title": "ToSlice, String and Count agree with the stream's token sequence", "statement": "If a stream yields tokens t1..tn and then ends without error, ToSlice returns exactly [t1..tn], String the concatenation of their values, Count n, all with a nil error. If it ends with error e, ToSlice returns nil and e, String returns empty and e, Count returns n and e.", "quantifier": "every stream (any filters, any source) that ends, every number of tokens", "why_tests_cant": "must hold for all token sequences and failure points", "anchors": ["tokenstream.go: ToSlice, String, Count"]}
{"id": "C05", "title": "WriteTo writes the token text in order and reports the byte count", "statement": "Against a writer that honours the io.Writer contract, WriteTo writes the token values in order, each as one write, stops at the first write error, and returns the number of bytes the writer accepted, with the write error if there was one and the stream's error otherwise.", "quantifier": "every stream that ends, every contract-abiding writer and failure point", "why_tests_cant": "write failures can occur at any token and byte", "anchors": ["tokenstream.go: WriteTo"]}
{"id": "C06", "title": "Where keeps exactly the matching tokens, in order, lazily", "statement": "Where(p) yields exactly the tokens of the source satisfying p, in order and unchanged, then ends as the source ends (same error or none). When it hands out a token it has read the source up to that token and no further.", "quantifier": "every predicate, every source stream (finite, failing or endless)", "why_tests_cant": "all predicates and all sources, including endless ones", "anchors": ["tokenstream.go: Where, where.next"]}
{"id": "C07", "title": "Words and Lemmas select exactly word tokens and lemma tokens", "statement": "Words yields exactly the tokens that are neither punctuation nor space; Lemmas exactly the tokens with IsLemma; both preserve order and the source's final error, are idempotent, and commute.", "quantifier": "every source stream that ends", "why_tests_cant": "token sequences are unbounded", "anchors": ["tokenstream.go: Words, Lemmas"]}
{"id": "C08", "title": "Distinct yields each string value once, at its first occurrence", "statement": "Distinct yields a subsequence of the source in which no two tokens have the same String(), every String() of the source occurs, and each kept token is the first source token with that value. Two Distinct streams share no memory. Applying it twice changes nothing.", "quantifier": "every source stream that ends", "why_tests_cant": "depends on the whole history of the stream", "anchors": ["tokenstream.go: Distinct"]}
{"id": "C09", "title": "Filter(f1,...,fn) is left-to-right composition", "statement": "stream.Filter(f1,...,fn) is fn(...f1(stream)); with no filters it is the stream itself; Filter(a..., b...) equals Filter(a...).Filter(b...).", "quantifier": "every list of filters, every stream", "why_tests_cant": "lists of filters are unbounded", "anchors": ["tokenstream.go: TokenStream.Filter"]}
{"id": "C10", "title": "Exhaustion is permanent through every chain of filters", "statement": "If the source, once it has returned nil with no error, keeps doing so, then so does the stream obtained from it by any chain of the library's filters: after the first (nil, nil) every further Next returns (nil, nil).", "quantifier": "every chain of library filters, every finite source, every number of further calls", "why_tests_cant": "arbitrary chains and arbitrarily many calls after the end", "anchors": ["tokenstream.go", "filters/*/filter.go"]}
{"id": "C11", "title": "No filter swallows or replaces a source error", "statement": "If the source ends with error e, a chain of the library's filters also ends with error e (it never reports a clean end), so String, ToSlice, Count and WriteTo on it report e.", "quantifier": "every chain of library filters, every source, every failure point, every error value", "why_tests_cant": "the failure can happen at any token and any look-ahead state of any filter", "anchors": ["tokenstream.go: where.next", "filters/*/filter.go: next"]}
{"id": "C12", "title": "On finite input every pipeline terminates, without panicking", "statement": "For every source that ends, every chain of the library's filters whose mapping functions do not return nil yields finitely many tokens and ends; no call panics or runs forever.", "quantifier": "every chain of library filters, every finite source", "why_tests_cant": "termination and absence of panics over all inputs and chains", "anchors": ["tokenstream.go", "tokenqueue/queue.go: Pop, Drop", "filters/*/filter.go"]}
{"id": "C13", "title": "Tokenize round-trips the text", "statement": "The concatenation of the tokens of Tokenize(r) is exactly the text read from r; every token is non-empty, not a lemma, and classified as NewToken would. If reading fails, the tokens are those of the text read so far and the stream ends with that error.", "quantifier": "every text, every reader outcome, every word segmenter that splits text into non-empty pieces", "why_tests_cant": "all texts; one test string cannot show fidelity", "anchors": ["tokenizer.go: Tokenize, TokenizeString, tokenizer.next"]}
{"id": "C14", "title": "Tokenization does not depend on how the reader chunks its data", "statement": "For any way the reader splits its data into reads, Tokenize yields the same tokens, as long as no token exceeds the scanner's buffer limit.", "quantifier": "every text, every chunking into reads", "why_tests_cant": "exponentially many chunkings; bugs appear when a boundary falls inside a multi-byte rune or a look-ahead", "anchors": ["tokenizer.go: newTokenizer, tokenizer.next"]}
{"id": "C15", "title": "TokenizeHTML yields every HTML token once, in order", "statement": "The concatenation of the tokens of TokenizeHTML is the concatenation of the String() of the HTML parser's tokens; every tag, comment and doctype is one token marked punctuation; nothing is dropped, duplicated or reordered; a parse error other than EOF ends the stream with that error.", "quantifier": "every sequence of HTML tokens the parser can produce, every ending", "why_tests_cant": "document structure is unbounded", "anchors": ["tokenizer_html.go: TokenizeHTML, htokenizer.next"]}
{"id": "C16", "title": "Text nodes outside script and style are tokenized into words", "statement": "In TokenizeHTML every text node that is not inside a script or style element is tokenized exactly as TokenizeString would; only script and style contents are kept as one token.", "quantifier": "every sequence of HTML tokens", "why_tests_cant": "depends on the history of tags seen before the text", "anchors": ["tokenizer_html.go: htokenizer.next"]}
{"id": "C17", "title": "Stop-word filter removes exactly the stop words", "statement": "stopwords.NewFilter(words, ignoreCase) yields exactly the tokens whose value is not in words (compared after strings.ToLower when ignoreCase), in order, unchanged, ending as the source ends.", "quantifier": "every stop list, both case modes, every source", "why_tests_cant": "all lists and texts", "anchors": ["filters/stopwords/filter.go: NewFilter, tokens.next"]}
{"id": "C18", "title": "Mapper applies its functions one-to-one", "statement": "mapper.NewFilter(f1,...,fn) yields fn(...f1(t)) for each source token t, in order, one output per input, provided no function returns nil.", "quantifier": "every list of functions not returning nil, every source", "why_tests_cant": "all functions and sources", "anchors": ["filters/mapper/filter.go: NewFilter, tokens.next"]}
{"id": "C19", "title": "A mapping function returning nil loses no other token", "statement": "If a mapping function returns nil for a token, only that token is affected: the tokens after it are still delivered.", "quantifier": "every mapping function, every source, every position of the nil", "why_tests_cant": "requires a nil at a particular position", "anchors": ["filters/mapper/filter.go: tokens.next", "token.go: NewToken", "tokenstream.go: Scan"]}
{"id": "C20", "title": "FoldString folds rune by rune", "statement": "On valid UTF-8, FoldString(s) replaces each non-ASCII rune that has a table entry by its ASCII replacement and keeps every other rune; ASCII strings come back unchanged with folded=false; when folded=true the result's foldable runes are all gone, and folding again returns it unchanged with folded=false.", "quantifier": "every string", "why_tests_cant": "1,242 table entries in every position and combination", "anchors": ["filters/ascii/fold.go: FoldString"]}
{"id": "C21", "title": "FoldString reports folded=true exactly when it has something to fold", "statement": "FoldString(s) returns folded=true iff s contains a rune with a table entry, and then no foldable rune remains in the result.", "quantifier": "every string", "why_tests_cant": "one of 229 switch arms may forget the flag", "anchors": ["filters/ascii/fold.go: FoldString"]}
{"id": "C22", "title": "The fold table is the Lucene table shipped beside it", "statement": "For every rune, FoldString uses the replacement that ASCIIFoldingFilter.java specifies.", "quantifier": "every rune", "why_tests_cant": "1,242 entries; the port was made by hand or script and its tests cover about a hundred", "anchors": ["filters/ascii/fold.go: FoldString", "filters/ascii/ASCIIFoldingFilter.java: foldToASCII"]}
{"id": "C23", "title": "Folding keeps bytes it has no mapping for", "statement": "FoldString never alters a part of the string that has no table entry, including invalid UTF-8.", "quantifier": "every byte string", "why_tests_cant": "invalid UTF-8 combined with a foldable rune is not in the tests", "anchors": ["filters/ascii/fold.go: FoldString"]}
{"id": "C24", "title": "The ascii.Fold filter marks exactly the changed tokens as lemmas", "statement": "ascii.Fold yields one token per source token; a token FoldString reports as folded is replaced by a lemma with the folded text, any other token is passed through unchanged; no token becomes nil, so the rest of the stream is never lost.", "quantifier": "every source stream, every token text", "why_tests_cant": "needs the table's replacement to be non-empty for every rune and the flag to be right in every combination", "anchors": ["filters/ascii/filter.go: folder", "filters/ascii/fold.go: FoldString", "filters/mapper/filter.go"]}
{"id": "C25", "title": "Stemmer touches only words and marks only changes", "statement": "For any stemming function, the stemmer filter passes punctuation and space tokens and words equal to their own stem through unchanged, and replaces every other word by a lemma token holding its stem; one output per input when no stem is empty.", "quantifier": "every stemming function with non-empty stems, every source", "why_tests_cant": "all words and stemmers", "anchors": ["filters/stemmer/filter.go: newStemmer"]}
{"id": "C26", "title": "Normalization filters leave normal tokens alone and normalize the rest", "statement": "For any normal form, the norm filter passes tokens already in normal form through unchanged and replaces each other token by a lemma with its normalized text; one output per input; applying the filter twice equals applying it once.", "quantifier": "every normal form obeying the x/text contract, every source", "why_tests_cant": "all token texts", "anchors": ["filters/norm/filter.go: newFilter"]}
{"id": "C27", "title": "Contractions are expanded in place and everything else is untouched", "statement": "Expand replaces each token whose text (or, failing that, whose lower-case text) is in the contraction table by the tokens of its expansion, in place and in order, and passes every other token through unchanged; it ends as the source ends.", "quantifier": "every source stream", "why_tests_cant": "all token sequences", "anchors": ["filters/contractions/filter.go: Expand, tokens.next, tryExpansion"]}
{"id": "C28", "title": "Expanding contractions twice changes nothing", "statement": "No token produced by an expansion is itself a contraction, so Expand(Expand(s)) yields the tokens of Expand(s).", "quantifier": "every source stream", "why_tests_cant": "273 table entries and every text", "anchors": ["filters/contractions/filter.go", "filters/contractions/generated.go: mappings"]}
{"id": "C29", "title": "The shipped contraction table is what its generator produces", "statement": "For every iteration order of the generator's base map, getMappings succeeds and yields exactly the table in generated.go: lower, Title and UPPER case, straight and smart apostrophes, with the expansion in the same case.", "quantifier": "every iteration order of the base map (48! orders), every table entry", "why_tests_cant": "map iteration order is unspecified; a re-add error can depend on it", "anchors": ["filters/contractions/generate/main.go: getMappings, apostrophes, title", "filters/contractions/generated.go: mappings"]}
{"id": "C30", "title": "Expanded contractions are marked as lemmas", "statement": "Tokens that a filter put in place of original tokens, such as those of an expanded contraction, report IsLemma() = true, so Lemmas() keeps them.", "quantifier": "every source stream", "why_tests_cant": "the flag is never checked for expansions", "anchors": ["filters/contractions/filter.go: tryExpansion", "token.go: IsLemma", "tokenstream.go: Lemmas"]}
{"id": "C31", "title": "Twitter-style filters never change the text", "statement": "For every sigil and legality test, the concatenation of the output tokens of the sigil filter equals that of the input tokens; each output token is either an input token or the lemma made of a sigil token directly followed by one legal token.", "quantifier": "every sigil, legality test and source that ends cleanly", "why_tests_cant": "all token sequences and look-ahead states", "anchors": ["filters/sigil/filter.go: stream.next, try"]}
{"id": "C32", "title": "A handle is recognised exactly when sigil, boundary and name are right", "statement": "The sigil filter merges a sigil token with the next token exactly when the previous source token is not a word (or there is none) and the next token is legal.", "quantifier": "every source stream", "why_tests_cant": "depends on three consecutive tokens and on what was queued before", "anchors": ["filters/sigil/filter.go: stream.next, try"]}
{"id": "C33", "title": "Handle and hashtag legality", "statement": "A name is a legal handle iff it has at most 15 characters, all ASCII letters, digits or underscore. It is a legal hashtag iff it is a single letter, or has a length other than one and consists of letters, numbers and underscores.", "quantifier": "every string", "why_tests_cant": "all lengths and runes, including boundary length 15/16 and invalid UTF-8", "anchors": ["filters/twitter/filter.go: legalHandle, legalHashtag"]}
{"id": "C34", "title": "Trie search finds the longest synonym, consuming no trailing ignored tokens", "statement": "SearchCanonical(tokens...) finds a match iff some non-empty prefix of tokens, normalized (lower-cased if ignoreCase, ignored runes removed), is an added synonym; it returns the canonical of the longest such normalized prefix and the smallest number of tokens that spells it.", "quantifier": "every trie built by any sequence of Add calls, every token list, every ignore set", "why_tests_cant": "all dictionaries and texts; ties between prefixes that differ only in ignored runes", "anchors": ["filters/synonyms/trie/trie.go: Add, SearchCanonical"]}
{"id": "C35", "title": "Synonym lists are split at commas and the last definition wins", "statement": "Building a filter adds, for each comma-separated synonym of each mapping key (leading spaces dropped), the normalized synonym with that mapping's canonical, later additions overriding earlier; the window of words considered is the largest number of words in any synonym, at least one.", "quantifier": "every mapping, every iteration order", "why_tests_cant": "all mapping strings, including empty, trailing commas and spaces", "anchors": ["filters/synonyms/filter.go: build, updateMaxWords", "filters/synonyms/trie/trie.go: Add"]}
{"id": "C36", "title": "Without conflicting synonyms, map iteration order is irrelevant", "statement": "If no normalized synonym is mapped to two different canonicals, the built filter behaves identically for every iteration order of the mappings.", "quantifier": "every conflict-free mapping, every pair of iteration orders, every source", "why_tests_cant": "Go randomises map order; a test sees one order per run", "anchors": ["filters/synonyms/filter.go: build"]}
{"id": "C37", "title": "The shipped Stack Overflow and NBA dictionaries are conflict-free", "statement": "No normalized synonym in the shipped stackoverflow and nba tables has two canonicals, none is empty and no canonical is empty; so Tags and CurrentPlayers are deterministic across processes.", "quantifier": "all entries of both tables, every iteration order", "why_tests_cant": "2,990 and 498 entries, all pairs, all orders", "anchors": ["filters/stackoverflow/generated.go: mappings", "filters/nba/generated.go: mappings", "filters/stackoverflow/filter.go", "filters/nba/filter.go"]}
{"id": "C38", "title": "The synonyms filter is leftmost-longest replacement over word runs", "statement": "On any source that ends cleanly, the output is obtained by scanning left to right: punctuation and space are passed on; at a word, consider the run from it up to punctuation or the word limit; if some prefix of the run is a synonym, the longest one is replaced by its canonical (nothing if the canonical is empty), otherwise the word is passed on verbatim.", "quantifier": "every dictionary, every source that ends cleanly", "why_tests_cant": "look-ahead buffer states are unbounded; buffering must not be observable", "anchors": ["filters/synonyms/filter.go: next, fill, wordrun", "filters/synonyms/trie/trie.go"]}
{"id": "C39", "title": "Synonyms never touch punctuation and never join words across it", "statement": "Every punctuation token of the input is in the output, unchanged and in order relative to everything else; a replaced group starts with a word, contains no punctuation, and has no more words than the longest synonym; with an empty dictionary the output is the input.", "quantifier": "every dictionary, every source that ends cleanly", "why_tests_cant": "all texts", "anchors": ["filters/synonyms/filter.go: fill, wordrun, next"]}
{"id": "C40", "title": "Synonym matching is insensitive to the ignored characters", "statement": "A text differing from a synonym only in ignored characters (spaces, hyphens, dots, slashes for Tags) is recognised as that synonym.", "quantifier": "every dictionary and text", "why_tests_cant": "needs the right combination of tokenization, word limit and punctuation", "anchors": ["filters/stackoverflow/filter.go: Tags doc comment", "filters/synonyms/filter.go: wordrun, fill"]}
{"id": "C41", "title": "Filters stream: constant look-ahead", "statement": "Obtaining one token from a filtered stream reads only a bounded number of tokens ahead, so memory stays constant whatever the input size and endless inputs can be processed.", "quantifier": "every source length, every filter", "why_tests_cant": "a claim about all input sizes", "anchors": ["README.md: Performance", "filters/synonyms/filter.go: next", "tokenqueue/queue.go"]}
{"id": "C42", "title": "Tokens before a read error are delivered", "statement": "When the source fails after n good tokens, the tokens before the failure are still delivered before the error is reported.", "quantifier": "every filter, every failure point", "why_tests_cant": "failure may occur at any point of the look-ahead", "anchors": ["filters/synonyms/filter.go: next, fill", "filters/sigil/filter.go: try"]}
{"id": "C43", "title": "A synonyms filter shared by goroutines is built once and seen complete", "statement": "However the goroutines interleave, the first use builds the dictionary exactly once and every stream created by the filter uses the complete dictionary; no stream sees a partial or missing one when building succeeds.", "quantifier": "every number of goroutines and every interleaving", "why_tests_cant": "schedules are unbounded and races are rare", "anchors": ["filters/synonyms/filter.go: Filter, build"]}
{"id": "C44", "title": "A failed dictionary build is reported to every user", "statement": "If building the dictionary fails, every stream made by that filter reports the error.", "quantifier": "every number of later uses", "why_tests_cant": "only the second use after a failure shows it", "anchors": ["filters/synonyms/filter.go: Filter, build"]}
{"id": "C45", "title": "TokenQueue is a FIFO queue", "statement": "Under any sequence of Push, Pop, Drop, Clear, PopTo, FlushTo, Len, Any on queues with separate storage, each queue behaves as a list with FIFO order; no operation on one queue changes the contents of another; Pop panics exactly on an empty queue and Drop(n) exactly if n exceeds the length.", "quantifier": "every sequence of operations on any number of queues, every slice capacity and growth policy", "why_tests_cant": "slice aliasing bugs appear only for particular capacities and histories", "anchors": ["tokenqueue/queue.go"]}
{"id": "C46", "title": "A queue does not modify the slice it was created from", "statement": "After q := New(xs...), operations on q leave the caller's slice xs unchanged.", "quantifier": "every slice and operation sequence", "why_tests_cant": "needs an aliasing check that tests do not make", "anchors": ["tokenqueue/queue.go: New, Drop, Pop"]}
{"id": "C47", "title": "Processing time is linear in the input", "statement": "Draining the output of a filter costs a number of token moves linear in the number of tokens.", "quantifier": "every input length", "why_tests_cant": "asymptotic claim", "anchors": ["README.md: Performance", "tokenqueue/queue.go: Drop, Pop", "filters/synonyms/filter.go: next"]}
{"id": "C48", "title": "Command line: exactly one input", "statement": "setInput accepts exactly the invocations with one input: it fails if the file cannot be opened, if there is neither pipe nor file, and if there are both; on success exactly one of the two is the input.", "quantifier": "every file name, file system and stdin mode", "why_tests_cant": "all combinations with every file system state", "anchors": ["cmd/jargon/main.go: setInput"]}
{"id": "C49", "title": "Command line: filters run in argument order", "statement": "setFilters installs one filter per recognised argument, in order, with repetitions; -stem uses the -lang stemmer; it fails iff -stem is present with an unknown language; everything else is ignored.", "quantifier": "every argument list and language", "why_tests_cant": "argument lists are unbounded", "anchors": ["cmd/jargon/main.go: setFilters, filterMap, stemmerMap"]}
{"id": "C50", "title": "Command line: every way of giving a flag selects its filter", "statement": "A filter flag given in any form the flag package accepts as true (-stack, --stack, -stack=true) selects the filter, and an argument that is the value of another flag does not.", "quantifier": "every argument list", "why_tests_cant": "the code re-scans the raw arguments instead of using the flag package", "anchors": ["cmd/jargon/main.go: main, setFilters"]}
{"id": "C51", "title": "Command line: output is the filtered text", "statement": "When execute succeeds, exactly the concatenation of the filtered tokens (each followed by a newline with -lines) has reached the output; with -count exactly the decimal number of tokens and a newline; if the output fails the error is returned.", "quantifier": "every input, filter list, buffer size, option combination and sink", "why_tests_cant": "all inputs, and every buffer-boundary position", "anchors": ["cmd/jargon/main.go: execute, setWriter"]}
{"id": "C52", "title": "Command line: everything produced before an input error is written", "statement": "If reading fails after some tokens were produced, execute returns the error and those tokens have reached the output.", "quantifier": "every failure point", "why_tests_cant": "needs a failing reader", "anchors": ["cmd/jargon/main.go: execute"]}
{"id": "C53", "title": "Command line: invalid invocations leave the output file alone", "statement": "If the input is missing, ambiguous or unreadable, or the language is unknown, no output file is created or truncated.", "quantifier": "every invocation and file system", "why_tests_cant": "order of side effects over all argument combinations", "anchors": ["cmd/jargon/main.go: main"]}
{"id": "C54", "title": "Command line: the input file is never modified", "statement": "Running the tool leaves the contents of the input file as they were and processes that content.", "quantifier": "every invocation and file system", "why_tests_cant": "needs output path equal to input path", "anchors": ["cmd/jargon/main.go: main, setInput, setOutput"]}
{"id": "C55", "title": "Command line: reader and writer are always configured", "statement": "After setInput and setOutput succeed, setReader installs a reader on the chosen input with a buffer between 4 KiB and 1 MiB, and setWriter a writer of the same size on the chosen output, so execute never reports a missing reader or writer.", "quantifier": "every input kind, file size and output kind", "why_tests_cant": "all file sizes", "anchors": ["cmd/jargon/main.go: setReader, setWriter, execute"]}
{"id": "C56", "title": "Web service: routing and rendering", "statement": "A request is answered with 404 unless the first path segment is text or html; otherwise the body is the filtered token stream, every token HTML-escaped, lemmas wrapped in a lemma span, in order; an OPTIONS request is answered without processing.", "quantifier": "every path, method and body", "why_tests_cant": "all paths and bodies", "anchors": ["web/main.go: mainHandler, jargonHandler"]}
{"id": "C57", "title": "Web service: no markup from the request reaches the response", "statement": "The response to /text and /html contains no '<', '>' or quote that originates in the request body; removing the lemma spans and unescaping gives back the text of the filtered tokens.", "quantifier": "every body", "why_tests_cant": "all bodies, XSS", "anchors": ["web/main.go: jargonHandler, lemma, plain"]}
{"id": "C58", "title": "Web service: a failing body is answered with status 500", "statement": "If reading or tokenizing the body fails, the response status is 500; otherwise it is 200.", "quantifier": "every body and failure point", "why_tests_cant": "needs failing readers", "anchors": ["web/main.go: jargonHandler"]}
{"id": "C59", "title": "Command line: end to end", "statement": "For an accepted invocation with one input, a known language and an output that can be created and is not the input, main terminates; what it adds to the output is exactly the text (or count) of the filtered tokens of the input, and its exit status is 0, unless standard output or the output file refused a write, which is reported.", "quantifier": "every argument list, file system, input, filter implementation and sink", "why_tests_cant": "arguments, inputs, files and sinks are all unbounded", "anchors": ["cmd/jargon/main.go: main"]}
{"id": "C60", "title": "NBA generator: roster names become the dictionary", "statement": "Every roster name \"last, first\" with exactly one comma becomes the entry \"first last\" (white space around the parts removed), under the key of the name followed, if it has letters to fold, by the folded name; nothing else is in the map, no key twice. The first name with no or several commas makes the generator fail with an error naming it and the number of parts. The shipped table is an output of the generator.", "quantifier": "every list of names, every Unicode table in which U+FFFD is no space", "why_tests_cant": "there are no tests of the generator and rosters are unbounded", "anchors": ["filters/nba/generate/main.go: getMappings", "filters/nba/generated.go: mappings"]}
{"id": "C61", "title": "Stack Overflow generator: words of the dictionary", "statement": "The generator reads page after page until one has no successor, at most 20, and fails exactly if one of them is not answered, reports an error or asks for more than 10 seconds. For tags without commas and consistent data, the words listed in the map are exactly the names and synonyms of the non-moderator tags, dashes written as spaces, without the hard-coded exceptions, each with its tag. The shipped table is an output of the generator.", "quantifier": "every behaviour of the API", "why_tests_cant": "the only test calls the live API; its answers are unbounded", "anchors": ["filters/stackoverflow/generate/main.go: writeDictionary, fetchTags", "filters/stackoverflow/generated.go: mappings"]}
{"id": "C62", "title": "Stack Overflow generator: exceptions are excluded", "statement": "No hard-coded exception becomes a word of the dictionary, neither as a tag nor as a synonym.", "quantifier": "every behaviour of the API", "why_tests_cant": "depends on the tags the API reports", "anchors": ["filters/stackoverflow/generate/main.go: ignore, writeDictionary"]}
{"id": "C63", "title": "Stack Overflow generator: no word is listed for two tags", "statement": "If no synonym belongs to two tags and no two tags are written alike, no word of the dictionary is listed for two tags, also when a tag is a synonym of another.", "quantifier": "every behaviour of the API", "why_tests_cant": "depends on which page the tags are on", "anchors": ["filters/stackoverflow/generate/main.go: writeDictionary"]}
{"id": "C64", "title": "Every synonym listed in a dictionary is recognised", "statement": "A text that is one of the listed synonyms is replaced by the canonical it is listed for.", "quantifier": "every dictionary; every entry of the shipped ones", "why_tests_cant": "4,079 and 530 synonyms; the test for \"C#\" passes although C# is taken for C", "anchors": ["filters/synonyms/filter.go: wordrun, fill", "filters/stackoverflow/generated.go: mappings", "filters/nba/generated.go: mappings", "filters/stackoverflow/filter_test.go: TestFilter"]}
{"id": "C65", "title": "Replacing synonyms twice is the same as once", "statement": "Applying a synonyms filter to its own output changes nothing.", "quantifier": "every dictionary and text", "why_tests_cant": "a canonical may form a new synonym with the words that follow it", "anchors": ["filters/synonyms/filter.go: Filter", "filters/stackoverflow/filter.go: Tags", "filters/nba/filter.go: CurrentPlayers"]}
{"id": "C66", "title": "A generated dictionary file declares exactly the map it was generated from", "statement": "The file a generator writes is Go source that declares the variable mappings with the entries of the map, whatever the strings in it are.", "quantifier": "every map of strings; the three generators", "why_tests_cant": "lines are broken by replacing text in the source, which may also match inside the quoted strings", "anchors": ["filters/nba/generate/main.go: write, tmpl", "filters/stackoverflow/generate/main.go: writeDictionary, tmpl", "filters/contractions/generate/main.go: write, tmpl"]}
{"id": "C67", "title": "Applying a filter a second time changes nothing", "statement": "The ascii fold, stop word, sigil, handle and hashtag filters are idempotent: the second application passes on exactly what the first one emits, and ends in the same way.", "quantifier": "every source without empty tokens; every stop list, sigil and legality test", "why_tests_cant": "the sigil filters depend on the neighbours of a token, which the first application changes; needs all sequences", "anchors": ["filters/ascii/filter.go: Fold", "filters/stopwords/filter.go: NewFilter", "filters/sigil/filter.go: stream.next, try", "filters/twitter/filter.go: Handles, Hashtags"]}
{"id": "C68", "title": "Handles and Hashtags can be applied in either order", "statement": "Handles after Hashtags emits the same tokens as Hashtags after Handles.", "quantifier": "every source of tokens as NewToken makes them", "why_tests_cant": "interaction of two filters that both look at neighbouring tokens", "anchors": ["filters/twitter/filter.go: Handles, Hashtags", "filters/sigil/filter.go: stream.next"]}
{"id": "C69", "title": "Decl and String describe a filter completely, as Go source", "statement": "Decl of a synonyms filter is Go source, whatever the dictionary and the order of map iteration; two filters with the same declaration recognise the same synonyms; the text of a queue determines its tokens' values.", "quantifier": "every dictionary, set of ignored characters and order of map iteration", "why_tests_cant": "runes are written between single quotes without escaping; maps are printed in random order", "anchors": ["filters/synonyms/trie/trie.go: RuneTrie.String, node.String", "filters/synonyms/filter.go: String, Decl", "tokenqueue/queue.go: String"]}
{"id": "C70", "title": "A text can be processed line by line", "statement": "For any chain of the library's filters that keep line ends (contractions, fold, stemmer, normal forms, handles, hashtags, synonyms, stop words, user mappings), followed by filters that select tokens, the output for a text is the concatenation of the outputs for its lines, with the line ends between them.", "quantifier": "every text, every way of cutting it at LF or CR LF, every chain of filters", "why_tests_cant": "all texts, line cuts and chains; needs that neither the word segmentation nor any filter looks across a line end", "anchors": ["tokenizer.go: tokenizer.next", "token.go: NewToken", "filters/synonyms/filter.go: tokens.fill", "filters/sigil/filter.go: stream.next"]}
{"id": "C71", "title": "Selecting filters can be applied in any order", "statement": "Where, Words, Lemmas, Stopwords and Distinct give the same tokens in whatever order they are applied, and two Where filters are one for both conditions.", "quantifier": "every source of tokens, also failing ones; every predicate and stop list", "why_tests_cant": "Distinct remembers which texts it has seen; needs all sequences", "anchors": ["tokenstream.go: Where, Words, Lemmas, Distinct", "filters/stopwords/filter.go: NewFilter"]}
{"id": "C72", "title": "Synonyms are recognised by their letters only", "statement": "If the tokens of two texts have pairwise the same letters up to case and ignored characters, and the same class (punctuation, space), then the same runs of tokens are replaced by the same lemmas in both.", "quantifier": "every dictionary, every pair of such token sequences", "why_tests_cant": "all dictionaries and spellings; the look-ahead window counts words, not letters", "anchors": ["filters/synonyms/filter.go: tokens.next", "filters/synonyms/trie/trie.go: Add, SearchCanonical"]}
{"id": "C73", "title": "Adding a synonym does not affect texts in which it does not occur", "statement": "A dictionary with further synonyms recognises the same as without them in every text that has none of them.", "quantifier": "every dictionary, every further synonyms, every text", "why_tests_cant": "the longest synonym determines how many words are considered for all others", "anchors": ["filters/synonyms/filter.go: build, tokens.fill", "filters/synonyms/trie/trie.go: SearchCanonical"]}
{"id": "C74", "title": "Flags are accepted as documented", "statement": "An argument list is accepted exactly if it has the documented form (one or two dashes; a value after the name or after an equals sign; boolean flags with an optional value; ends at the first non-flag or at --); of several values for a flag the last one counts; otherwise the default.", "quantifier": "every list of arguments", "why_tests_cant": "all argument lists", "anchors": ["cmd/jargon/main.go: main"]}
{"id": "C75", "title": "Every answer of the web service allows requests from anywhere; the health check answers ok", "statement": "Every response, also to OPTIONS, unknown paths and failing requests, carries the two CORS headers with exactly the documented values, before the status is sent, and no headers but these and those of a 404 page; /_ah/health answers 200 ok; the port is PORT or 8080.", "quantifier": "every request, every state of the connection", "why_tests_cant": "all requests and failures of the connection", "anchors": ["web/main.go: main, mainHandler, healthCheckHandler, cors"]}
{"id": "C76", "title": "A part of a text has the tokens of that part", "statement": "Tokens that stand next to each other in the tokens of a text are exactly the tokens of the text they make up, so that a text can be cut between tokens.", "quantifier": "every text, also invalid UTF-8, every run of adjacent tokens", "why_tests_cant": "all texts and all cuts; word boundaries depend on characters before and after", "anchors": ["tokenizer.go: TokenizeString, next"]}
{"id": "C77", "title": "Canonical terms of the shipped dictionaries stay as they are", "statement": "A text that is a canonical term of stackoverflow.Tags or nba.CurrentPlayers has the same text after the filter.", "quantifier": "every canonical term of the two tables, every order in which the map is ranged over", "why_tests_cant": "thousands of terms and every iteration order of the map", "anchors": ["filters/stackoverflow/filter.go: Tags", "filters/stackoverflow/generated.go: mappings", "filters/nba/filter.go: CurrentPlayers", "filters/synonyms/filter.go"]}
{"id": "C78", "title": "The output of -lines tells the tokens", "statement": "Two runs of jargon -lines that print the same have the same tokens; the number of lines is the number of tokens, line ends counted twice.", "quantifier": "every two texts or pages, every selection of filters", "why_tests_cant": "all pairs of inputs; needs that no token contains a line feed", "anchors": ["cmd/jargon/main.go: main", "tokenizer.go: next", "tokenizer_html.go: next"]}
{"id": "C79", "title": "Contractions are expanded in any writing", "statement": "Tokens that differ only in upper and lower case and in straight or curly apostrophes are expanded alike, into tokens that differ only in that.", "quantifier": "every two streams of such tokens", "why_tests_cant": "all streams, all case variants of all characters", "anchors": ["filters/contractions/filter.go: Expand, tokens.next", "filters/contractions/generated.go: mappings"]}
{"id": "C80", "title": "An expanded text has the tokens that were put out", "statement": "The text of the tokens after expanding contractions has exactly these tokens when tokenized again, and expanding contractions in it changes nothing.", "quantifier": "every text, also invalid UTF-8", "why_tests_cant": "all texts; the words put in might join with the characters around them", "anchors": ["filters/contractions/filter.go: tokens.next", "tokenizer.go: TokenizeString"]}
{"id": "C81", "title": "A folded text needs no folding", "statement": "In the text of the tokens after folding to ASCII, tokenized again, no token is changed by folding.", "quantifier": "every text, also invalid UTF-8", "why_tests_cant": "all texts; folding works token by token and has entries that do not count as changes (C21)", "anchors": ["filters/ascii/filter.go: Fold, fold", "filters/ascii/fold.go: FoldString"]}
{"id": "C82", "title": "Filters keep their own copy of what they were made from", "statement": "What a caller does with the slices and maps given to a NewFilter after the call makes no difference to the filter.", "quantifier": "every sequence of changes, applications and calls of Next", "why_tests_cant": "all interleavings of changes with uses; the build of a synonyms filter is delayed to its first use", "anchors": ["filters/stopwords/filter.go: NewFilter", "filters/synonyms/filter.go: NewFilter, build", "filters/mapper/filter.go: NewFilter"]}
{"id": "C83", "title": "Streams over one source share it", "statement": "When several streams are made by Where, Words or Lemmas from one source and from each other, each token of the source is delivered at most once, to whichever stream is called, and in order.", "quantifier": "every tree of such streams, every order of calls", "why_tests_cant": "all interleavings of calls on all trees of streams", "anchors": ["README.md: Streams", "tokenstream.go: TokenStream.Where, where.next, Words, Lemmas"]}
{"id": "C84", "title": "Folding and expanding can be done in either order", "statement": "ascii.Fold after contractions.Expand has the same result as contractions.Expand after ascii.Fold.", "quantifier": "every stream of tokens", "why_tests_cant": "all streams; needs the two tables to fit together entry by entry", "anchors": ["filters/ascii/filter.go: Fold", "filters/contractions/filter.go: Expand, tokens.next"]}
{"id": "C85", "title": "The exit status tells whether the output is complete", "statement": "The exit status of jargon is 0 exactly if the output is complete, with nothing on standard error; else it is 1 and standard error has the reason on a line of its own.", "quantifier": "every command line, input, output and file system, also when reading or writing fails", "why_tests_cant": "the existing tests call the setters, not main; failures of input and output at every point", "anchors": ["cmd/jargon/main.go: main, printUsage, setFilters"]}
{"id": "C86", "title": "One filter can serve several streams at once", "statement": "When a filter value is applied to several sources and the streams are read in any interleaving, every stream gives what it gives when it is the only one.", "quantifier": "every sequence of applications and calls of Next, in any order, for stop-word filters, mappers and synonyms filters with any arguments", "why_tests_cant": "unboundedly many interleavings; the existing tests use each filter value for one stream at a time", "anchors": ["filters/synonyms/filter.go: Filter, build", "filters/stopwords/filter.go: Filter", "filters/mapper/filter.go: Filter"]}
{"id": "C87", "title": "Every output token is a source token or a lemma for some of them", "statement": "In the output of any chain of filters every token is a token of the source, or a lemma that stands for one or more adjacent tokens of the source; no source token is used twice and the order is kept. So filters never add tokens, and the tokens that are not lemmas are a subsequence of the source.", "quantifier": "every chain of library filters with any parameters, every source that ends", "why_tests_cant": "all chains of any length with all parameters, all token sequences", "anchors": ["filters/synonyms/filter.go: next", "filters/sigil/filter.go: next", "filters/ascii/filter.go: Fold", "filters/contractions/filter.go: next", "tokenstream.go: Where, Distinct"]}
{"id": "C88", "title": "Players' names are recognised whatever their diacritics and separators", "statement": "A text that differs from the name of a current player only in case, spaces, dashes, apostrophes, periods and diacritics is recognised as that player, as the documentation of nba.CurrentPlayers says.", "quantifier": "every player of the shipped table, every text that is alike, every order of map iteration", "why_tests_cant": "infinitely many ways of writing 498 names; the existing test has a handful", "anchors": ["filters/nba/filter.go: CurrentPlayers, ignore", "filters/nba/generated.go: mappings", "filters/nba/generate/main.go: getMappings", "filters/synonyms/filter.go: next"]}
{"id": "C89", "title": "A filter's output depends only on what its source delivers", "statement": "If two token streams deliver the same results on successive calls of Next (tokens, end, errors, panics), then any filter, any chain of filters and any of ToSlice, String, Count, WriteTo behaves the same on both.", "quantifier": "every filter of the library with any arguments, every chain of filters, every pair of streams however they were made", "why_tests_cant": "quantifies over all pairs of implementations of a stream; tests fix one source", "anchors": ["tokenstream.go: Filter, Where, ToSlice, String, WriteTo, Count", "filters/mapper/filter.go: next", "filters/contractions/filter.go: next", "filters/synonyms/filter.go: next", "filters/twitter/filter.go: next", "filters/stopwords/filter.go: NewFilter"]}
{"id": "C90", "title": "How the input arrives makes no difference to the command line tool's output", "statement": "Whatever the portions in which standard input or the file delivers the text, and whatever the size of the buffer (main.go), the tool writes the same bytes with the same calls of Write and ends with the same error.", "quantifier": "every text whose words fit the scanner's buffer, every reader delivering it in portions, every buffer size, every chain of filters, every writer", "why_tests_cant": "all ways of dividing all texts, all sizes of buffers, all writers including failing ones", "anchors": ["cmd/jargon/main.go: setReader, execute, writeAll", "tokenizer.go: Tokenize, next", "tokenstream.go: Filter"]}
{"id": "C91", "title": "Every text is tokenized, however long its words", "statement": "For every text that the reader delivers without error, Tokenize delivers all of its tokens and then ends without error.", "quantifier": "every text, every reader delivering it in any portions, every size of the scanner's buffer", "why_tests_cant": "the limit (64 kB for one word, e.g. encoded data) is in the standard library's scanner and depends on the buffer and on how the input arrives; tests use short words", "anchors": ["tokenizer.go: Tokenize, newTokenizer, next"]}
{"id": "C92", "title": "An error is final", "statement": "Once Next has returned an error, every further call returns that error, provided the source's (the reader's) error is final too.", "quantifier": "every filter and chain of filters, every source and reader, every error, any number of further calls", "why_tests_cant": "no test calls Next again after an error; the behaviour depends on what was buffered when the error came", "anchors": ["synonyms/filter.go: next, fill", "tokenizer.go: next", "tokens.go: Next, Scan"]}
{"id": "C93", "title": "Letters with diacritics are folded alike, composed or decomposed", "statement": "Two texts that differ only in that letters with diacritics are written as one rune or as a letter and combining marks are folded to the same text.", "quantifier": "every text, every choice of the letters that are decomposed", "why_tests_cant": "tests fold composed letters only; the two writings look the same on the screen", "anchors": ["filters/ascii/fold.go: FoldString", "filters/ascii/filter.go: Fold", "filters/norm/filter.go"]}
{"id": "C94", "title": "A text in capital letters is treated like the text", "statement": "With ignoreCase, the stopword and synonym filters - and the contractions filter always - treat a text in capital letters as they treat the text itself: the same tokens are dropped, replaced or expanded. (It does not quite hold: case is ignored by lower-casing, and 23 lower-case letters have a capital letter whose lower case is another letter. The Greek final sigma is one: the stop word with it is not recognised in capital letters. For a stopword filter the letters concerned are exactly these 23. A text without them is treated alike by all three filters, and it is cut into the same words but for an iota subscript and the circled m.)", "quantifier": "all texts, tokens and token streams; all lists of stop words, all synonym mappings and ignored runes, all scanners (synonyms); the Unicode tables as data", "why_tests_cant": "Tests use ASCII words, for which lower-casing is case folding. That the exceptions are exactly 23 letters needs every letter with a capital; that they are the only ones that matter needs every list of stop words.", "anchors": ["filters/stopwords/filter.go:12-22", "filters/stopwords/filter.go:59-66", "filters/synonyms/trie/trie.go:66-76", "filters/synonyms/trie/trie.go:98-108", "filters/contractions/filter.go:63-69"]}
{"id": "C95", "title": "Where handles are recognised in running text", "statement": "In a text that is tokenized and given to twitter.Handles, a legal handle (@ and 1 to 15 letters, digits or underscores) at the beginning of the text or after a space, and not followed by a further letter, digit or underscore, becomes one lemma token. (It does not hold: in \"@bob's\" and \"@bob.Then\" the word after the @ is longer than the name. Exactly: after a place that is neither a word nor the sigil it is recognised if and only if the following characters do not continue the word by the rules of word segmentation - no letter, digit, underscore or combining mark, and no apostrophe, full stop or colon with a letter after it; after a word it is never recognised. Between spaces it always is.)", "quantifier": "all texts before and after, all legal names", "why_tests_cant": "The tests have handles followed by a space, a comma or the end. Whether one is recognised depends on the text before and after through the rules of word segmentation, for all texts.", "anchors": ["filters/twitter/filter.go:11-38", "filters/sigil/filter.go: stream.next, try", "tokenizer.go: TokenizeString"]}
{"id": "C96", "title": "Where hashtags are recognised in running text", "statement": "In a text that is tokenized and given to twitter.Hashtags, a legal hashtag at the beginning of the text or after a space, not followed by a further letter, number or underscore, becomes one lemma token. (It does not hold: word segmentation separates Chinese characters, hiragana, Thai letters and others, so a hashtag in these scripts is never recognised beyond its first character. For names of alphabetic letters, digits and underscores: after a place that is neither a word nor the sigil it is recognised if and only if the following characters do not continue the word; after a word never; between spaces always.)", "quantifier": "all texts before and after, all legal names; the Unicode tables as data", "why_tests_cant": "The tests have hashtags in Latin letters. That no hashtag of more than one character is recognised in certain scripts is a statement about all texts and all characters of these classes.", "anchors": ["filters/twitter/filter.go:14-62", "filters/sigil/filter.go: stream.next, try", "tokenizer.go: TokenizeString"]}
{"id": "C97", "title": "Where contractions are expanded in running text", "statement": "In a text that is tokenized and given to contractions.Expand, a contraction of the table (in any case) after a space or at the beginning, not followed by a letter, is a token and is expanded; the text before and after becomes what it would become by itself. (It does not hold as far as the place is concerned: in \"can't.He\" the full stop between two letters does not end the word. Exactly: it is a token if and only if the text before does not lead into a word - no letter, digit or underscore at its end, and no apostrophe, full stop or colon after a letter - and the text after does not continue it. Where it is, the output is that of the text before, the expansion, and that of the text after. Between spaces it always is.)", "quantifier": "all texts before and after, all contractions of the table in all writings", "why_tests_cant": "The tests expand contractions between spaces and at the end of a sentence. The places where one is overlooked depend on the text before and after.", "anchors": ["filters/contractions/filter.go:27-80", "filters/contractions/generated.go", "tokenizer.go: TokenizeString"]}
{"id": "C98", "title": "A text can be processed sentence by sentence", "statement": "For every chain of filters of the library that look at texts (ascii.Fold, contractions.Expand, twitter.Handles and Hashtags, stemmers, synonyms filters of any mapping): the output for a text of sentences, each ended by one of . , ; : ! ? ) ] \" and a space, is the outputs for the sentences by themselves, with the tokens of the ends and spaces between them. More generally a text may be cut at any punctuation that is a token of its own and that each filter keeps (not Distinct, which remembers earlier words).", "quantifier": "all texts, all numbers of sentences, all chains of these filters, all synonym mappings", "why_tests_cant": "Word segmentation looks ahead and back, the synonyms filter looks ahead over several words and the handle filters look back; that none of them looks across the end of a sentence concerns all texts and all dictionaries.", "anchors": ["tokenizer.go: TokenizeString", "filters/synonyms/filter.go", "filters/sigil/filter.go: stream.next, try", "filters/contractions/filter.go", "filters/ascii/filter.go"]}
{"id": "C99", "title": "A pipe of two commands does what one command does", "statement": "For flags A of filters and arguments B, `jargon A | jargon B` prints for every text what `jargon A B` prints. In particular `jargon` without arguments copies its input, contractions can be expanded by a process of their own, and folding to ASCII twice is folding once.", "quantifier": "all texts (also invalid UTF-8), all arguments B that read standard input and write standard output (filters, -lines, -count, -lang), all tag mappings and stemmers", "why_tests_cant": "The second process divides the text into words anew; whether it finds the words the first put out concerns all texts.", "anchors": ["cmd/jargon/main.go: main, setFilters, setReader, execute", "tokenizer.go: Tokenize", "filters/contractions/filter.go", "filters/ascii/filter.go"]}
{"id": "C100", "title": "A word that occurs in no synonym separates what the synonyms filter does", "statement": "A synonyms filter treats the passages before and after a word that belongs to no synonym separately: the output for the whole text is the outputs for the passages, with that word unchanged in between; white space of ignored characters around a passage stays and changes nothing. So every listed synonym enclosed by such words, anywhere in a text, is replaced by its lemma.", "quantifier": "all dictionaries and options, all texts, any number of such words; for the last sentence all synonyms of stackoverflow.Tags and nba.CurrentPlayers that are recognised at all (C64)", "why_tests_cant": "The filter looks ahead over several words and consumes what it matched; that no match reaches over a given word concerns all neighbours it may have.", "anchors": ["filters/synonyms/filter.go: Filter, next, fill, wordrun", "filters/synonyms/trie/trie.go: SearchCanonical", "filters/stackoverflow/filter.go", "filters/nba/filter.go"]}
{"id": "C101", "title": "Folding the tokens of a text spells the folded text", "statement": "The tokens that ascii.Fold makes of a tokenized text, concatenated, are what ascii.FoldString makes of the whole text; FoldString reports a change exactly if some of those tokens is a lemma.", "quantifier": "all byte strings (also invalid UTF-8), all Unicode class tables", "why_tests_cant": "Whether cutting the text into words first changes what is replaced concerns every text and every place where a word may end.", "anchors": ["filters/ascii/filter.go: Fold, folder", "filters/ascii/fold.go: FoldString", "tokenizer.go: TokenizeString"]}
{"id": "C102", "title": "Requests served at the same time do not influence each other", "statement": "The web service's answer to a request depends on the request only, not on which other requests are served before or at the same time, nor on whether the dictionary is being built by this or another request.", "quantifier": "every interleaving of any number of requests, every order in which Go ranges over the dictionary, every request, body and connection", "why_tests_cant": "Schedules cannot be enumerated; a race in building the shared dictionary shows in rare interleavings of the first requests only.", "anchors": ["web/main.go: mainHandler, jargonHandler", "filters/synonyms/filter.go: Filter, next", "filters/stackoverflow/filter.go: Tags"]}
{"id": "C103", "title": "Filters leave the markup of an HTML document alone", "statement": "When a document from TokenizeHTML goes through filters, every tag, comment and doctype comes out as the same punctuation token, after what comes of a document that ends before it. What follows it is treated as a document of its own, so that no filter joins words across a tag.", "quantifier": "all documents, all places in them, all sequences of the shipped filters (any synonyms filter and any stemmer among them)", "why_tests_cant": "Look-ahead and look-behind of the filters (handles, hashtags, synonyms of several words) can reach over a tag in any of unboundedly many combinations of texts, tags and filters.", "anchors": ["tokenizer_html.go: TokenizeHTML", "filters/twitter/filter.go: Handles, Hashtags", "filters/contractions/filter.go: Expand", "filters/synonyms/filter.go: next", "filters/ascii/filter.go: Fold", "filters/stemmer/filter.go"]}
{"id": "C104", "title": "No filter makes a text longer than by a fixed factor", "statement": "What a shipped filter makes of a text is at most so many times as long, in bytes: ascii.Fold 3 (4/3 if the text is UTF-8), contractions.Expand 7/3, stackoverflow.Tags 23/2, nba.CurrentPlayers 5/3, Handles, Hashtags, Stopwords, Where, Words, Lemmas and Distinct 1; the factors multiply along a chain of filters. None of these factors can be improved.", "quantifier": "all token streams, all orders in which Go ranges over the dictionaries, all chains of filters", "why_tests_cant": "The bound concerns every text and every table entry, also texts with invalid UTF-8 and synonyms spelled with other separators and capitals.", "anchors": ["filters/ascii/fold.go: FoldString", "filters/contractions/generated.go: mappings", "filters/stackoverflow/generated.go: mappings", "filters/nba/generated.go: mappings", "filters/synonyms/filter.go: next", "filters/synonyms/trie/trie.go: SearchCanonical"]}
{"id": "C105", "title": "Line ends of Windows and of Unix are treated alike", "statement": "If every CR LF in a text is replaced by LF, the filters put out the same tokens, except that the token of each CR LF is that of LF instead. (A carriage return of its own directly before CR LF is excluded.)", "quantifier": "all texts in which no carriage return stands before CR LF, all chains of filters that keep line ends, with Words and Lemmas after them", "why_tests_cant": "A line end can stand between any two words, sigils and synonyms of any text; tests have line feeds only.", "anchors": ["tokenizer.go: Tokenize", "filters/twitter/filter.go: Handles, Hashtags", "filters/synonyms/filter.go: next", "filters/contractions/filter.go: Expand"]}
{"id": "C106", "title": "The web page and the command line tool agree", "statement": "For the same text, the page of the web service at /text shows what `jargon -stack` prints; the texts it marks as lemmas are, in order, the lines printed by `jargon -stack -lemmas -lines`, and their number is that printed by `jargon -stack -lemmas -count`. The same for /html and the flag -html. (The page shows U+FFFD for NUL.)", "quantifier": "all texts, all HTML documents that are parsed to their end, all dictionaries, all outputs and connections that take all text", "why_tests_cant": "The two programs are tested apart, each on a few texts; that they agree is a statement about every text.", "anchors": ["web/main.go: jargonHandler", "cmd/jargon/main.go: main, execute", "filters/stackoverflow/filter.go: Tags", "tokenstream.go: Lemmas"]}
{"id": "C107", "title": "Two filters of a kind in a row are one", "statement": "Two stop-word filters in a row (with the same case mode), two mappers or two synonyms filters (with the same options) do what one filter with both lists does, on streams that end and on streams that fail.", "quantifier": "every source of tokens, also failing ones; every two stop lists, lists of functions and dictionaries", "why_tests_cant": "all pairs of lists and all texts; differences need a synonym made by the other filter", "anchors": ["filters/stopwords/filter.go: NewFilter, tokens.next", "filters/mapper/filter.go: NewFilter, tokens.next", "filters/synonyms/filter.go: NewFilter, tokens.next"]}
{"id": "C108", "title": "What was put out before an error stays when the input is complete", "statement": "If reading a text fails at some point, what a chain of filters has put out by then is the beginning of what it puts out for the complete text; so the output can be continued after a retry. The same for streams of tokens that fail.", "quantifier": "every text, every point of failure, every chain of the library's filters, every continuation", "why_tests_cant": "all chains, all points of failure and all continuations; filters look ahead and hold tokens back", "anchors": ["tokenizer.go: tokenizer.next", "tokenstream.go: Filter", "filters/sigil/filter.go: try", "filters/contractions/filter.go: next", "filters/synonyms/filter.go: next"]}
{"id": "C109", "title": "The number printed with -count is the number of lines printed with -lines", "statement": "jargon -count prints the number of tokens that the chosen filters leave, and this is the number of lines that jargon prints with -lines instead (jargon -lines | wc -l). With -distinct it is the number of different texts of tokens. Giving -lines as well makes no difference.", "quantifier": "every text on standard input, every list of flags", "why_tests_cant": "all texts and all lists of flags; the two numbers differ only for texts with line ends", "anchors": ["cmd/jargon/main.go: main, execute, flags", "tokenstream.go: Count"]}
{"id": "C110", "title": "How many tokens a filter puts out", "statement": "Folding, stemming, normalizing and mapping put out as many tokens as they read; no filter but contractions puts out more than it reads; contractions put out at most three for each, and never fewer than they read. So also before an error. In a chain the factors multiply, and -ascii makes no difference to the number that jargon -count prints.", "quantifier": "every source of tokens, ending or failing; every filter of the library with every stop list, dictionary and mapping functions that do not return nil; every chain", "why_tests_cant": "all streams and all dictionaries; a filter that looks ahead may duplicate a token only in rare positions", "anchors": ["filters/mapper/filter.go: next", "filters/contractions/filter.go: next, tryExpansion", "filters/synonyms/filter.go: next", "filters/sigil/filter.go: next, try", "cmd/jargon/main.go: execute"]}
{"id": "C111", "title": "A filter made from nothing changes nothing", "statement": "A stop-word filter without words, a mapper without functions, a synonyms filter for an empty map, Where with a predicate that is always true and Filter without filters put out what they read, and fail with the same error after the same tokens.", "quantifier": "every source of tokens, ending or failing; every setting for case and ignored runes", "why_tests_cant": "all streams and every point of failure", "anchors": ["filters/stopwords/filter.go: NewFilter, tokens.next", "filters/mapper/filter.go: NewFilter, tokens.next", "filters/synonyms/filter.go: NewFilter, tokens.next", "tokenstream.go: Filter, Where"]}
{"id": "C112", "title": "What the documentation shows is what happens", "statement": "Each example of a replacement in the README and in the comments of the packages is what the filter does with that text: alone, and as a sentence between any others, which are treated as if they stood alone.", "quantifier": "every documented example of stackoverflow.Tags, contractions.Expand and ascii.Fold; every list of sentences before and after; every order in which Go visits the map of tags", "why_tests_cant": "all surrounding sentences and all orders of the map", "anchors": ["README.md: introduction, Token filters", "filters/stackoverflow/filter.go: Tags", "filters/contractions/filter.go: Expand", "filters/ascii/filter.go: Fold"]}
