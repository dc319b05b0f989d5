{
 "claims": [
  {
   "property": "C01",
   "status": "proved",
   "theorems": [
    "C01_NewToken_classifies",
    "C01_cache_transparent"
   ],
   "note": "For every Unicode table in which CR and LF are white space (needed only for the CRLF special case)."
  },
  {
   "property": "C02",
   "status": "proved",
   "theorems": [
    "C02_range_decodes",
    "C02_roundtrip"
   ],
   "note": ""
  },
  {
   "property": "C03",
   "status": "proved",
   "theorems": [
    "C03_fields_reflect_last_call"
   ],
   "note": ""
  },
  {
   "property": "C04",
   "status": "proved",
   "theorems": [
    "C04_consumers_agree"
   ],
   "note": "Counts and lengths are unbounded naturals (no int overflow)."
  },
  {
   "property": "C05",
   "status": "proved",
   "theorems": [
    "C05_WriteTo",
    "C05_any_writer"
   ],
   "note": "Byte counts are unbounded naturals."
  },
  {
   "property": "C06",
   "status": "proved",
   "theorems": [
    "C06_Where",
    "C06_Where_diverges"
   ],
   "note": ""
  },
  {
   "property": "C07",
   "status": "proved",
   "theorems": [
    "C07_Words_Lemmas"
   ],
   "note": ""
  },
  {
   "property": "C08",
   "status": "proved",
   "theorems": [
    "C08_Distinct"
   ],
   "note": "Separate memory per Distinct call holds by construction of the model: each stream has its own seen map."
  },
  {
   "property": "C09",
   "status": "proved",
   "theorems": [
    "C09_Filter_composes"
   ],
   "note": ""
  },
  {
   "property": "C10",
   "status": "proved",
   "theorems": [
    "C10_exhaustion_is_permanent"
   ],
   "note": "For every filter in ChainSpec.library_filter: mapping functions must not return nil, stemmer and normal form must not erase a token."
  },
  {
   "property": "C11",
   "status": "proved",
   "theorems": [
    "C11_errors_pass"
   ],
   "note": "Same filters as C10. Tokens may be lost before the error (C42)."
  },
  {
   "property": "C12",
   "status": "proved",
   "theorems": [
    "C12_pipelines_terminate"
   ],
   "note": "Same filters as C10."
  },
  {
   "property": "C13",
   "status": "proved",
   "theorems": [
    "C13_Tokenize_roundtrip",
    "C13_Tokenize_read_error"
   ],
   "note": "The uax29 word scanner is outside /repo; it enters as any scanner whose pieces are non-empty and spell the text read."
  },
  {
   "property": "C14",
   "status": "proved",
   "theorems": [
    "C14_chunking_does_not_matter",
    "C14_pieces_of_the_text",
    "C14_same_as_Tokenize",
    "C14_beyond_the_limit",
    "C14_words"
   ],
   "note": "bufio.Scanner is modelled (Scanner.v). The split function is any one fulfilling the bufio contract (split_ok); C14_words instantiates it with the UAX #29 word rules of Words.v, for which the contract is proved. \"Within the limit\" means that from the start of every piece max_size bytes are enough to see its end, look-ahead included."
  },
  {
   "property": "C15",
   "status": "proved",
   "theorems": [
    "C15_TokenizeHTML_complete",
    "C15_text_node_error"
   ],
   "note": "The x/net/html tokenizer enters as any sequence of HTML tokens with non-empty text nodes."
  },
  {
   "property": "C16",
   "status": "partial",
   "theorems": [
    "C16_refuted",
    "C16_text_nodes_partial"
   ],
   "note": "REFUTED: tokenizer_html.go:76-78 clears the local token's DataAtom instead of the tokenizer's parent, so after any script or style start tag all later text nodes stay one token. Proved instead: exactly the text nodes with no earlier script/style start tag are tokenized."
  },
  {
   "property": "C17",
   "status": "proved",
   "theorems": [
    "C17_Stopwords"
   ],
   "note": ""
  },
  {
   "property": "C18",
   "status": "proved",
   "theorems": [
    "C18_Mapper"
   ],
   "note": ""
  },
  {
   "property": "C19",
   "status": "partial",
   "theorems": [
    "C19_refuted",
    "C19_further_function_panics",
    "C19_raw_Next_continues_partial",
    "C19_stops",
    "C19_panics"
   ],
   "note": "REFUTED: a nil result ends the stream for every consumer, and with a further mapping function panics. Proved instead: raw Next goes on after (nil, nil); what ToSlice does for any functions and any tokens (C19_stops, C19_panics). Functions are assumed to dereference their argument, as all of the library do."
  },
  {
   "property": "C20",
   "status": "partial",
   "theorems": [
    "C20_refuted",
    "C20_rune_by_rune_partial",
    "C20_every_string",
    "C20_ascii_unchanged",
    "C20_folded_is_stable"
   ],
   "note": "REFUTED for strings whose only foldable runes are U+2053 or U+FF5E (their arm does not set folded). Proved for all other valid strings; C20_every_string describes what happens to any string."
  },
  {
   "property": "C21",
   "status": "partial",
   "theorems": [
    "C21_refuted",
    "C21_folded_flag_partial"
   ],
   "note": "REFUTED by U+2053 and U+FF5E; proved with these two excepted."
  },
  {
   "property": "C22",
   "status": "partial",
   "theorems": [
    "C22_refuted",
    "C22_table_partial"
   ],
   "note": "REFUTED at U+02A8 (\"tr\" in fold.go, \"tc\" in the Java file); proved for every other rune."
  },
  {
   "property": "C23",
   "status": "partial",
   "theorems": [
    "C23_refuted",
    "C23_keeps_valid_partial",
    "C23_exactly"
   ],
   "note": "REFUTED: an invalid byte becomes U+FFFD when anything else is folded. Proved for valid UTF-8, and for any string with nothing to fold; C23_exactly: in no other case."
  },
  {
   "property": "C24",
   "status": "proved",
   "theorems": [
    "C24_Fold_filter"
   ],
   "note": ""
  },
  {
   "property": "C25",
   "status": "proved",
   "theorems": [
    "C25_Stemmer"
   ],
   "note": "The stemming function is arbitrary."
  },
  {
   "property": "C26",
   "status": "proved",
   "theorems": [
    "C26_Norm"
   ],
   "note": "The normal form is any pair (isNormal, normalize) with normalize giving a non-empty normal string."
  },
  {
   "property": "C27",
   "status": "proved",
   "theorems": [
    "C27_Expand",
    "C27_expansion_error"
   ],
   "note": ""
  },
  {
   "property": "C28",
   "status": "proved",
   "theorems": [
    "C28_Expand_idempotent"
   ],
   "note": "For every scanner splitting the table's expansions at spaces; the UAX #29 segmenter in the model does."
  },
  {
   "property": "C29",
   "status": "proved",
   "theorems": [
    "C29_generator_makes_the_table"
   ],
   "note": "For every case table that agrees with ASCII on ASCII letters and fixes U+2019. Rendering of the map as Go source is not modelled."
  },
  {
   "property": "C30",
   "status": "partial",
   "theorems": [
    "C30_refuted",
    "C30_other_filters_partial"
   ],
   "note": "REFUTED: contractions.go builds the expansion with TokenizeString, whose tokens are not lemmas. Proved for Fold, Stemmer, Norm, sigil and synonym filters."
  },
  {
   "property": "C31",
   "status": "proved",
   "theorems": [
    "C31_Sigil_preserves_text"
   ],
   "note": "If the source fails, a sigil token waiting for its successor is lost (see C42)."
  },
  {
   "property": "C32",
   "status": "partial",
   "theorems": [
    "C32_refuted",
    "C32_Twitter_exact_partial",
    "C32_spec_is_functional",
    "C32_every_text",
    "C32_steps_are_functional"
   ],
   "note": "REFUTED by \"@@foo\" and by a handle after a sigil with an illegal word. Proved when every sigil token is followed by a legal token or by punctuation or space other than the sigil; what happens to any other text is described exactly by C32_every_text."
  },
  {
   "property": "C33",
   "status": "proved",
   "theorems": [
    "C33_legal_handle",
    "C33_legal_hashtag"
   ],
   "note": ""
  },
  {
   "property": "C34",
   "status": "proved",
   "theorems": [
    "C34_longest_match",
    "C34_spec_is_functional"
   ],
   "note": ""
  },
  {
   "property": "C35",
   "status": "proved",
   "theorems": [
    "C35_build",
    "C35_spec_is_functional"
   ],
   "note": "For scanners that split the keys without error; the error case is in C44."
  },
  {
   "property": "C36",
   "status": "proved",
   "theorems": [
    "C36_order_irrelevant"
   ],
   "note": ""
  },
  {
   "property": "C37",
   "status": "proved",
   "theorems": [
    "C37_Tags",
    "C37_CurrentPlayers"
   ],
   "note": "For every scanner that makes each comma of a key a piece of its own; lower case and white space as in the concrete Unicode table."
  },
  {
   "property": "C38",
   "status": "proved",
   "theorems": [
    "C38_leftmost_longest",
    "C38_spec_is_functional"
   ],
   "note": ""
  },
  {
   "property": "C39",
   "status": "proved",
   "theorems": [
    "C39_punctuation_is_kept"
   ],
   "note": ""
  },
  {
   "property": "C40",
   "status": "partial",
   "theorems": [
    "C40_refuted",
    "C40_ignored_characters_partial",
    "C40_exactly_partial"
   ],
   "note": "REFUTED: an ignored character that is punctuation (\"ruby-on-rails\") ends the run of words, and more words than the longest synonym has (\"react js\") are not considered. Proved for texts without punctuation and with no more words; C40_exactly_partial says exactly which texts are replaced as a whole."
  },
  {
   "property": "C41",
   "status": "partial",
   "theorems": [
    "C41_refuted",
    "C41_synonyms_diverge",
    "C41_streaming_partial"
   ],
   "note": "REFUTED: the synonyms filter's loop runs until the source ends, so its first Next reads everything and never returns on endless input. Proved for every other filter."
  },
  {
   "property": "C42",
   "status": "partial",
   "theorems": [
    "C42_refuted",
    "C42_synonyms_lose_all",
    "C42_delivery_partial"
   ],
   "note": "REFUTED for the synonyms filter (all tokens before the error are lost; a caller who goes on after the error may still get them, see C92) and sigil filters (a last sigil is lost). Proved for chains of all other filters."
  },
  {
   "property": "C43",
   "status": "proved",
   "theorems": [
    "C43_built_once_and_complete",
    "C43_no_deadlock"
   ],
   "note": "sync.Once is modelled after its source; memory is sequentially consistent, justified by the proved absence of conflicting accesses. For configurations whose keys tokenize without error; otherwise see C44."
  },
  {
   "property": "C44",
   "status": "partial",
   "theorems": [
    "C44_refuted",
    "C44_reported_once_partial"
   ],
   "note": "REFUTED: the error is a local variable of the one call that ran build; every other call returns a stream without error and without a trie, which panics at its first word. Proved: the call that ran build reports the error on every Next."
  },
  {
   "property": "C45",
   "status": "proved",
   "theorems": [
    "C45_queues_are_FIFO",
    "C45_list_queues"
   ],
   "note": "For every capacity append may choose. Includes the case that source and destination are the same queue."
  },
  {
   "property": "C46",
   "status": "partial",
   "theorems": [
    "C46_refuted",
    "C46_Drop_moves_the_callers_elements",
    "C46_slice_unchanged_partial"
   ],
   "note": "REFUTED: New(xs...) keeps the caller's slice, and Drop and Pop copy within it. Proved as long as nothing is taken out of the queue; the library only calls New without arguments."
  },
  {
   "property": "C47",
   "status": "partial",
   "theorems": [
    "C47_refuted",
    "C47_synonyms_quadratic",
    "C47_other_filters_partial",
    "C47_count_is_faithful"
   ],
   "note": "REFUTED for the synonyms filter: its first Next puts the whole output in a queue whose Pop copies all remaining elements. Proved linear for the sigil and contraction filters. Only element moves of Drop and Pop are counted."
  },
  {
   "property": "C48",
   "status": "proved",
   "theorems": [
    "C48_exactly_one_input"
   ],
   "note": ""
  },
  {
   "property": "C49",
   "status": "proved",
   "theorems": [
    "C49_filters_in_argument_order"
   ],
   "note": ""
  },
  {
   "property": "C50",
   "status": "partial",
   "theorems": [
    "C50_refuted",
    "C50_plain_flags_partial"
   ],
   "note": "REFUTED: setFilters compares the raw arguments with \"-stack\" etc., so --stack and -stack=true select nothing while the value in \"-out -stack\" and an overridden \"-stack -stack=false\" do. Proved for all argument lists where filter flags are written with one dash and no value, and no other argument looks like one."
  },
  {
   "property": "C51",
   "status": "proved",
   "theorems": [
    "C51_output_is_the_filtered_text"
   ],
   "note": "For both versions of bufio.Writer.WriteString (with and without direct writing of long strings)."
  },
  {
   "property": "C52",
   "status": "partial",
   "theorems": [
    "C52_refuted",
    "C52_at_most_a_buffer_lost_partial"
   ],
   "note": "REFUTED: execute returns the input error without flushing the writer; what is still in the buffer is lost. Proved: at most a buffer's worth is lost and the error is returned."
  },
  {
   "property": "C53",
   "status": "proved",
   "theorems": [
    "C53_invalid_invocations_change_nothing",
    "C53_what_is_reported"
   ],
   "note": ""
  },
  {
   "property": "C54",
   "status": "partial",
   "theorems": [
    "C54_refuted",
    "C54_other_files_keep_their_contents_partial"
   ],
   "note": "REFUTED: -file x -out x truncates x before reading it. Proved: all files other than the output file keep their contents."
  },
  {
   "property": "C55",
   "status": "proved",
   "theorems": [
    "C55_reader_and_writer_configured"
   ],
   "note": ""
  },
  {
   "property": "C56",
   "status": "proved",
   "theorems": [
    "C56_routing_and_rendering"
   ],
   "note": "The handlers; net/http's server and multiplexer are not modelled."
  },
  {
   "property": "C57",
   "status": "partial",
   "theorems": [
    "C57_refuted",
    "C57_no_markup_partial",
    "C57_exactly"
   ],
   "note": "REFUTED: html/template writes U+FFFD for a NUL byte. Proved: no markup from the request for every body, and the text is given back up to NUL, so exactly when there is none."
  },
  {
   "property": "C58",
   "status": "proved",
   "theorems": [
    "C58_status_500",
    "C58_status_500_with_synonyms",
    "C56_routing_and_rendering"
   ],
   "note": "For streams whose errors come without a token, which includes every synonyms filter. (A failing body gives an empty page, all tokens are lost.)"
  },
  {
   "property": "C59",
   "status": "proved",
   "theorems": [
    "C59_end_to_end"
   ],
   "note": "Flag parsing as in the standard library's flag package. Inputs that fail: C85."
  },
  {
   "property": "C60",
   "status": "proved",
   "theorems": [
    "C60_nba_generator",
    "C60_shipped_table"
   ],
   "note": "Up to the map; fetching the page is a parameter."
  },
  {
   "property": "C61",
   "status": "proved",
   "theorems": [
    "C61_stackoverflow_generator",
    "C61_shipped_table"
   ],
   "note": "Up to the map; the API is a parameter."
  },
  {
   "property": "C62",
   "status": "partial",
   "theorems": [
    "C62_refuted",
    "C62_exceptions_partial",
    "C62_exactly"
   ],
   "note": "REFUTED: a tag named drop-down gets past the exceptions, its dash is replaced before it is looked up. Proved for the other exceptions; C62_exactly says for which tags drop down is listed."
  },
  {
   "property": "C63",
   "status": "partial",
   "theorems": [
    "C63_refuted",
    "C63_no_duplicates_partial",
    "C63_words",
    "C63_exactly"
   ],
   "note": "REFUTED: a tag that only a later page lists as a synonym is already in the map. Proved for pages where this does not happen; C63_words says which words are listed for which tag, C63_exactly for which pages a word is listed twice."
  },
  {
   "property": "C64",
   "status": "partial",
   "theorems": [
    "C64_refuted",
    "C64_listed_partial",
    "C64_Tags_partial",
    "C64_CurrentPlayers_partial"
   ],
   "note": "REFUTED: \"c#\" is listed by Tags, but the number sign is punctuation and ends the run of words; C# is taken for C. Proved: exactly those synonyms are recognised that have no punctuation and end with a letter that is not ignored; all but 45 of Tags and 30 of CurrentPlayers, cut into words by the segmentation of the model."
  },
  {
   "property": "C65",
   "status": "partial",
   "theorems": [
    "C65_refuted",
    "C65_twice_partial",
    "C65_CurrentPlayers_partial"
   ],
   "note": "REFUTED: Tags makes \"bash profile\" of \"bash script profile\", and \"bash\" of that. Proved for dictionaries where no canonical occurs within a synonym, such as CurrentPlayers, and texts whose words all have a letter that is not ignored."
  },
  {
   "property": "C66",
   "status": "partial",
   "theorems": [
    "C66_refuted",
    "C66_written_partial",
    "C66_spoiled",
    "C66_shipped_partial",
    "C66_reading",
    "C66_errors"
   ],
   "note": "REFUTED: a name that begins with a closing brace is broken in two lines within its literal, and gofmt rejects the source. Proved for exactly the maps without such a string (broken_map); C66_spoiled: for all others the source declares nothing. gofmt, strconv.IsPrint and the file system are parameters."
  },
  {
   "property": "C67",
   "status": "proved",
   "theorems": [
    "C67_idempotent"
   ],
   "note": "For sources without empty tokens. Norm: C26; Expand: C28; synonyms filters: C65."
  },
  {
   "property": "C68",
   "status": "partial",
   "theorems": [
    "C68_refuted",
    "C68_order_partial"
   ],
   "note": "REFUTED: in \"@#b@x\" Handles after Hashtags finds \"@x\", Hashtags after Handles does not. Proved when no sigil is followed by a word that is not legal or by another sigil."
  },
  {
   "property": "C69",
   "status": "partial",
   "theorems": [
    "C69_refuted",
    "C69_lexes_partial",
    "C69_tells_filters_apart",
    "C69_text",
    "C69_queues",
    "C69_queue_text"
   ],
   "note": "REFUTED: runes are not escaped, for an apostrophe there are three single quotes in a row; nor do the types and fields exist that are named in the text. Proved: for other runes the text consists of lexical elements of Go; two filters with the same text recognise the same; the text is given word for word. strconv.IsPrint is a parameter."
  },
  {
   "property": "C70",
   "status": "proved",
   "theorems": [
    "C70_line_by_line",
    "C70_segmentation_breaks",
    "C70_Distinct_looks_back"
   ],
   "note": "For segmentations that break at line ends, which is proved of the Unicode rules. Words, Lemmas and other selecting filters only at the end of the chain (they may drop the line ends); not for Distinct, which remembers earlier lines."
  },
  {
   "property": "C71",
   "status": "partial",
   "theorems": [
    "C71_refuted",
    "C71_selecting_partial",
    "C71_fused_partial",
    "C71_distinct_partial",
    "C71_exactly",
    "C71_Lemmas_exactly"
   ],
   "note": "REFUTED for Lemmas and Distinct: of \"a\" and the lemma \"a\", Distinct keeps the first. Proved for all others, Words and Distinct for tokens as NewToken makes them; C71_exactly says for which tokens a selection and Distinct can change places."
  },
  {
   "property": "C72",
   "status": "proved",
   "theorems": [
    "C72_letters_only"
   ],
   "note": ""
  },
  {
   "property": "C73",
   "status": "partial",
   "theorems": [
    "C73_refuted",
    "C73_no_more_words_partial",
    "C73_only_more_words",
    "C73_wider_partial"
   ],
   "note": "REFUTED: \"r u b y\" is recognised as ruby as soon as some synonym has four words. Proved: all that further synonyms do to such a text is that more words are considered at once; this changes nothing if they have no more words than the others, or if no other synonym is spread over more words."
  },
  {
   "property": "C74",
   "status": "proved",
   "theorems": [
    "C74_flags_as_documented",
    "C74_last_value_counts"
   ],
   "note": "The flag package is a fork of the standard one and not in /repo; the model follows the standard one."
  },
  {
   "property": "C75",
   "status": "proved",
   "theorems": [
    "C75_headers",
    "C75_health_check",
    "C75_other_paths",
    "C75_address"
   ],
   "note": "Path cleaning by net/http is not modelled."
  },
  {
   "property": "C76",
   "status": "proved",
   "theorems": [
    "C76_parts"
   ],
   "note": "For the word boundary rules of Unicode in Words.v; the package uax29 itself is not in /repo."
  },
  {
   "property": "C77",
   "status": "partial",
   "theorems": [
    "C77_refuted",
    "C77_Tags_partial",
    "C77_CurrentPlayers_partial"
   ],
   "note": "REFUTED: Tags makes google-google-chrome of its canonical term google-chrome. Proved: exactly the 236 terms of the list Tags_altered (CanonSpec.v) are changed, and none by CurrentPlayers. For the word boundary rules of Unicode in Words.v; the package uax29 itself is not in /repo."
  },
  {
   "property": "C78",
   "status": "partial",
   "theorems": [
    "C78_refuted",
    "C78_tokens_partial",
    "C78_texts_partial",
    "C78_line_count_partial",
    "C78_command_partial",
    "C78_command_count_partial",
    "C78_any_flags_partial"
   ],
   "note": "REFUTED for HTML with -distinct: after a script the text nodes are single tokens (C16) that can contain line feeds. Proved for texts with any filters, and for all tokens without line feeds. The last three say it of the process with its flags and pipes."
  },
  {
   "property": "C79",
   "status": "proved",
   "theorems": [
    "C79_any_writing"
   ],
   "note": "For the word boundary rules of Unicode in Words.v; the package uax29 itself is not in /repo."
  },
  {
   "property": "C80",
   "status": "proved",
   "theorems": [
    "C80_expanded_text"
   ],
   "note": "For the word boundary rules of Unicode in Words.v; the package uax29 itself is not in /repo."
  },
  {
   "property": "C81",
   "status": "proved",
   "theorems": [
    "C81_folded_text"
   ],
   "note": "For the word boundary rules of Unicode in Words.v; the package uax29 itself is not in /repo."
  },
  {
   "property": "C82",
   "status": "partial",
   "theorems": [
    "C82_refuted",
    "C82_stopwords_partial",
    "C82_synonyms_partial",
    "C82_synonyms_first_use_partial",
    "C82_mapper_partial",
    "C82_undisturbed"
   ],
   "note": "REFUTED: a synonyms filter reads its map and runes when it is first applied, a mapper reads the slice of functions for every token. Proved: stop words are copied; a synonyms filter is the one made from what its arguments are when it is first applied, later changes have no effect; changes that spare the functions have none on a mapper."
  },
  {
   "property": "C83",
   "status": "proved",
   "theorems": [
    "C83_forward_only",
    "C83_any_source",
    "C83_alone"
   ],
   "note": ""
  },
  {
   "property": "C84",
   "status": "partial",
   "theorems": [
    "C84_refuted",
    "C84_either_order_partial",
    "C84_exactly_partial",
    "C84_still_contractions"
   ],
   "note": "REFUTED: the word don't with an o umlaut becomes a contraction by folding. Proved: the order makes no difference when the tokens that are contractions, folded or not, have only ASCII characters and curly apostrophes. C84_exactly_partial: for all tokens exactly those lists commute whose tokens have the same expansion, or none, before and after folding."
  },
  {
   "property": "C85",
   "status": "partial",
   "theorems": [
    "C85_refuted",
    "C85_status_partial",
    "C85_complete_partial",
    "C85_incomplete_partial",
    "C85_invalid_partial",
    "C85_version_partial",
    "C85_language_message"
   ],
   "note": "REFUTED: without input the usage is printed on standard error with status 0; -version has status 0 also when nothing could be printed. Proved for all other command lines with flags that can be parsed: status 0 exactly with complete output, else status 1 and the message. Not modelled: status and message of the flag package."
  },
  {
   "property": "C86",
   "status": "partial",
   "theorems": [
    "C86_refuted",
    "C86_synonyms_partial",
    "C86_stopwords_partial",
    "C86_mapper_partial"
   ],
   "note": "REFUTED: a synonyms filter whose map cannot be built reports this on its first stream only. C86_synonyms_partial: exactly for synonyms filters that can be built; always for the other two."
  },
  {
   "property": "C87",
   "status": "partial",
   "theorems": [
    "C87_refuted",
    "C87_others_partial",
    "C87_meaning"
   ],
   "note": "REFUTED: an expanded contraction becomes several tokens that are not lemmas. Proved for chains of all the other filters (user mappings must mark what they change and not return nil)."
  },
  {
   "property": "C88",
   "status": "partial",
   "theorems": [
    "C88_refuted",
    "C88_names_partial",
    "C88_exactly_partial"
   ],
   "note": "REFUTED: a name with some but not all of its diacritics is not recognised, nor one with a curly apostrophe or with a dash for a space. C88_exactly_partial says exactly which token sequences are recognised."
  },
  {
   "property": "C89",
   "status": "proved",
   "theorems": [
    "C89_filter",
    "C89_filters",
    "C89_methods",
    "C89_observations"
   ],
   "note": "bisimilar sources give bisimilar outputs"
  },
  {
   "property": "C90",
   "status": "proved",
   "theorems": [
    "C90_buffered_reader",
    "C90_same_stream",
    "C90_same_as_Tokenize",
    "C90_same_writes",
    "C90_execute"
   ],
   "note": "without -html (the HTML parser's reading is not modelled); texts whose words fit the scanner's buffer (beyond it see C14_beyond_the_limit)"
  },
  {
   "property": "C91",
   "status": "partial",
   "theorems": [
    "C91_refuted",
    "C91_long_words",
    "C91_tokens_are_short",
    "C91_short_words_partial"
   ],
   "note": "REFUTED: a word longer than bufio.Scanner's limit (64 kB) ends the stream with an error; all later words are missing. Proved: no token is ever longer; all words are delivered if any two neighbours are shorter than the limit by four bytes. For word rules of Words.v; bufio is modelled, not in /repo."
  },
  {
   "property": "C92",
   "status": "partial",
   "theorems": [
    "C92_refuted",
    "C92_synonyms",
    "C92_tokenizer",
    "C92_final_partial"
   ],
   "note": "REFUTED: every synonyms filter returns something else after its source's error (the output withheld before, or the complaint that its buffer is not empty), and Tokenize goes on with tokens after `token too long`. Proved: exactly what these two do after an error; for chains of all other filters the error is final. bufio is modelled, not in /repo."
  },
  {
   "property": "C93",
   "status": "partial",
   "theorems": [
    "C93_refuted",
    "C93_exactly",
    "C93_marks_stay",
    "C93_normalized_first_partial",
    "C93_folded_first"
   ],
   "note": "REFUTED: e with acute accent becomes e, but e followed by a combining acute accent stays; this is so for every text with a decomposed letter (C93_exactly). Proved: folding removes no combining mark; after a normalization that unifies the two writings they are folded alike, in the other order they are not. The decompositions are those of the Unicode database, for the runes of the fold table."
  },
  {
   "property": "C94",
   "status": "partial",
   "theorems": [
    "C94_refuted",
    "C94_letters",
    "C94_stopwords_exactly",
    "C94_stopwords_partial",
    "C94_synonyms_partial",
    "C94_contractions_partial",
    "C94_tokens_partial"
   ],
   "note": "REFUTED: case is ignored by lower-casing, not by case folding, so words with one of 23 letters (final sigma, long s, micro sign, ...) are not recognised in capital letters. Proved: the exceptions are exactly these letters; for stop words the two are treated alike exactly without them; without them synonyms and contractions are found alike, and the text is cut into the same words (two exceptions)."
  },
  {
   "property": "C95",
   "status": "partial",
   "theorems": [
    "C95_refuted",
    "C95_exactly",
    "C95_between_spaces_partial"
   ],
   "note": "REFUTED: `@bob's` and `@bob.Then` are not recognised as the handle @bob. Proved: exactly where a legal handle is recognised, for every text before and after (uax29 as modelled); between spaces always."
  },
  {
   "property": "C96",
   "status": "partial",
   "theorems": [
    "C96_refuted",
    "C96_scripts",
    "C96_exactly",
    "C96_between_spaces_partial"
   ],
   "note": "REFUTED: hashtags in Chinese, Japanese, Thai and other scripts are never recognised beyond the first character (C96_scripts). Proved: exactly where a hashtag of alphabetic letters, digits and underscores is recognised, for every text before and after (uax29 as modelled)."
  },
  {
   "property": "C97",
   "status": "partial",
   "theorems": [
    "C97_refuted",
    "C97_exactly",
    "C97_expanded",
    "C97_between_spaces_partial"
   ],
   "note": "REFUTED: `can't.He` is one word and not expanded. Proved: exactly where a contraction is a token, for every text before and after; there the expansion takes its place and the rest is treated as by itself (uax29 as modelled)."
  },
  {
   "property": "C98",
   "status": "proved",
   "theorems": [
    "C98_cut_at_punctuation",
    "C98_sentence_by_sentence"
   ],
   "note": "Word segmentation (uax29) as modelled; sentences begin neither with a space nor with a combining mark, and the marks are nine ASCII ones (any punctuation in C98_cut_at_punctuation)."
  },
  {
   "property": "C99",
   "status": "partial",
   "theorems": [
    "C99_refuted",
    "C99_same_tokens_partial",
    "C99_contractions_first",
    "C99_without_arguments",
    "C99_folding_again",
    "C99_prints_one_text"
   ],
   "note": "REFUTED: -ascii | -lines and -ascii -lines differ for U+2474, folded to (1). Proved for every text in which the second command finds the tokens of the first; always so for -contractions and without flags. Not for -stem in the first command (its -lang would be that of both)."
  },
  {
   "property": "C100",
   "status": "partial",
   "theorems": [
    "C100_refuted",
    "C100_passages_partial",
    "C100_blanks",
    "C100_Tags",
    "C100_CurrentPlayers"
   ],
   "note": "REFUTED for words that merely are no synonym themselves (\"on\" in \"Ruby on Rails\"). Proved for punctuation and for words whose letters occur in no synonym; that is sufficient, not necessary."
  },
  {
   "property": "C101",
   "status": "partial",
   "theorems": [
    "C101_refuted",
    "C101_valid_partial",
    "C101_exactly",
    "C101_folded"
   ],
   "note": "REFUTED: in \"é ～\" FoldString replaces the tilde, the filter does not (see C20). Proved for valid UTF-8 without U+2053 and U+FF5E; C101_exactly says for which byte strings it holds. Words as modelled (uax29)."
  },
  {
   "property": "C102",
   "status": "proved",
   "theorems": [
    "C102_same_answer",
    "C102_answer_as_if_alone",
    "C102_shared_filter",
    "C102_build_error"
   ],
   "note": "Memory is sequentially consistent, which C43 justifies (no data race). net/http and html/template as in C56; their internals are not modelled."
  },
  {
   "property": "C103",
   "status": "partial",
   "theorems": [
    "C103_refuted",
    "C103_markup_kept_partial",
    "C103_cut_at_markup",
    "C103_text_by_text",
    "C103_fold_exactly"
   ],
   "note": "REFUTED for ascii.Fold, which replaces characters in tags too (<p title=\"é\">). Proved for the other filters, and for Fold where it has nothing to replace; C103_fold_exactly says that this is necessary. After a script or style tag the rest is not cut into words (C16), so C103_cut_at_markup and C103_text_by_text exclude it; the tags stay there as well. HTML tokens are those of golang.org/x/net/html, whose own parsing is not modelled."
  },
  {
   "property": "C104",
   "status": "proved",
   "theorems": [
    "C104_Fold",
    "C104_Fold_utf8",
    "C104_Expand",
    "C104_Tags",
    "C104_CurrentPlayers",
    "C104_synonyms",
    "C104_no_growth",
    "C104_chain"
   ],
   "note": "The factor 1 of the last group is attained whenever nothing is dropped. Stemmers and norm are external functions, for which no bound is claimed."
  },
  {
   "property": "C105",
   "status": "proved",
   "theorems": [
    "C105_line_ends",
    "C105_stray_return"
   ],
   "note": "C105_stray_return shows why CR before CR LF is excluded. Words as modelled (uax29). Distinct is not among the filters."
  },
  {
   "property": "C106",
   "status": "proved",
   "theorems": [
    "C106_page_and_output",
    "C106_both_answer"
   ],
   "note": "Up to NUL, which the page shows as U+FFFD (C57). The parser of HTML is the same parameter on both sides; text nodes are not empty, as with golang.org/x/net/html. Inputs that fail: C58 and C85."
  },
  {
   "property": "C107",
   "status": "partial",
   "theorems": [
    "C107_refuted",
    "C107_stopwords_partial",
    "C107_mapper_partial",
    "C107_nil",
    "C107_synonyms_partial"
   ],
   "note": "REFUTED: what the first of two synonyms filters puts in can be a synonym of the second, and a nil ends the stream between two mappers while one mapper panics (C107_nil). What holds: stop lists, mappers without nil, and synonyms that occur neither in the text nor in the output of the first filter. Missing: dictionaries that both apply to the text."
  },
  {
   "property": "C108",
   "status": "partial",
   "theorems": [
    "C108_refuted",
    "C108_streams_partial",
    "C108_texts_partial"
   ],
   "note": "REFUTED: the scanner hands out the rest of its buffer when reading fails, also if that is only the beginning of a word. What holds: streams of tokens, and texts that fail between two tokens (words as modelled, uax29). Missing: failures within a word."
  },
  {
   "property": "C109",
   "status": "partial",
   "theorems": [
    "C109_refuted",
    "C109_tokens",
    "C109_any_flags",
    "C109_exactly_partial",
    "C109_any_exactly_partial",
    "C109_distinct",
    "C109_with_lines"
   ],
   "note": "REFUTED: a line end is one token, but printed as two lines. What holds: -count prints the number of tokens; it is that of the lines exactly if no token is a line end. Missing: the number of lines when a stemmer or a tag's name makes a line feed."
  },
  {
   "property": "C110",
   "status": "proved",
   "theorems": [
    "C110_changing",
    "C110_no_more",
    "C110_Expand",
    "C110_chain",
    "C110_command"
   ],
   "note": "Mapping functions must not return nil, stemmers and normal forms not erase a token (hypotheses)."
  },
  {
   "property": "C111",
   "status": "partial",
   "theorems": [
    "C111_refuted",
    "C111_others_partial",
    "C111_synonyms_partial"
   ],
   "note": "REFUTED: a synonyms filter for an empty map loses all tokens before an error (C42). What holds: all the others, and the synonyms filter on streams that end."
  },
  {
   "property": "C112",
   "status": "partial",
   "theorems": [
    "C112_refuted",
    "C112_contractions_partial",
    "C112_tags_partial",
    "C112_folds_partial"
   ],
   "note": "REFUTED: the comments at contractions.Expand say that \"don't\" becomes \"does not\"; it becomes \"do not\". What holds: all the other examples."
  }
 ]
}