MUTATIONS = [
# token.go, punct.go
("Token.v","spaceIsPunct","(r =? 10) || (r =? 13) || (r =? 9).","(r =? 10) || (r =? 13).","C01","spaceIsPunct forgets the tab"),
("Token.v","isPunct","uIsPunct U r || spaceIsPunct r.","uIsPunct U r && spaceIsPunct r.","C01","isPunct with and instead of or"),
("Token.v","all_runes","if negb (p r) then false else all_runes p rs'","if p r then true else all_runes p rs'","C01","any rune instead of all runes"),
("Token.v","new_token_uncached","if Nat.eqb (String.length s) 0 then None","if Nat.eqb (String.length s) 0 then Some (mkToken s true true isLemma)","C01","empty string gives a token instead of nil"),
("Token.v","new_token_uncached","Some (mkToken s punct space isLemma).","Some (mkToken s space punct isLemma).","C01","punct and space swapped"),
("Token.v","common","(new_token_uncached s true, new_token_uncached s false))","(new_token_uncached s false, new_token_uncached s true))","C01","cache entries for lemma and non-lemma swapped"),
("Token.v","NewToken","if isLemma then t else f","f","C01","cache ignores isLemma"),
("Token.v","new_token_uncached","if seqb s crlf then (true, true)","if seqb s crlf then (true, false)","C01","CRLF is not white space"),
# utf8
("Utf8.v","hi3","if b1 =? 237 then 159 else 191.","191.","C02","surrogates accepted when decoding"),
("Utf8.v","runes","in_range 194 223 b1 then\n      match s1 with\n      | String c2 s2 =>\n        if cont (byte_of c2) then rune2","in_range 192 223 b1 then\n      match s1 with\n      | String c2 s2 =>\n        if cont (byte_of c2) then rune2","C02","overlong 2-byte sequences accepted"),
("Utf8.v","encode_rune","if valid_rune r then enc_raw r else enc_raw RuneError.","enc_raw r.","C02","surrogates are encoded"),
# tokenstream.go
("Stream.v","closure","closure step (fst r) (snd r) x')","closure step (fst r) None x')","C03","the Next shim does not store the error"),
("Stream.v","closure","closure step (fst r) (snd r) x')","closure step tok (snd r) x')","C03","the Next shim does not store the token"),
("Stream.v","Scan","Ret ((match ts_token s'' with Some _ => true | None => false end) &&\n       (match ts_err s'' with None => true | Some _ => false end), s'').","Ret ((match ts_token s'' with Some _ => true | None => false end), s'').","C03","Scan ignores the error"),
("Stream.v","ToSlice","| Some e => Ret (([], Some e), s')\n  | None => Ret ((acc, None), s')\n  end.\n\n(** tokenstream.go:118-131","| Some e => Ret ((acc, None), s')\n  | None => Ret ((acc, None), s')\n  end.\n\n(** tokenstream.go:118-131","C04","ToSlice swallows the error"),
("Stream.v","ToSlice","(fun l t => l ++ [t])","(fun l t => t :: l)","C04","ToSlice prepends"),
("Stream.v","StreamString","(b ++ tvalue t)%string","(b ++ if tspace t then \" \" else tvalue t)%string","C04","String normalizes white space"),
("Stream.v","Count","Ret ((n, Err s'), s').","Ret ((n, None), s').","C04","Count swallows the error"),
("Stream.v","Count","(fun n _ => S n)","(fun n t => if tspace t then n else S n)","C04","Count skips white space"),
("Stream.v","writeto_loop","| Some e => Ret ((written + n, Some e), (ws', s'))","| Some e => Ret ((written, Some e), (ws', s'))","C05","WriteTo does not count a partial write"),
("Stream.v","writeto_loop","| None => writeto_loop w fuel k' (written + n) ws' s'","| None => writeto_loop w fuel k' (written + String.length (tvalue t)) ws' s'","C05","WriteTo counts the token instead of the bytes written"),
("Stream.v","writeto_loop","Ret ((written, Err s'), (ws, s'))","Ret ((written, None), (ws, s'))","C05","WriteTo swallows the stream error"),
("Stream.v","where_loop","if b then Ret ((Some t, None), (p', up'))","if negb b then Ret ((Some t, None), (p', up'))","C06","Where negates the predicate"),
("Stream.v","where_loop","else where_loop pred fuel k' (p', up')","else Ret ((None, None), (p', up'))","C06","Where stops at the first mismatch"),
("Stream.v","where_loop","| (_, Some e) => Ret ((None, Some e), (p, up'))","| (_, Some e) => Ret ((None, None), (p, up'))","C06, C11","Where swallows the error"),
("Stream.v","is_word","negb (tpunct t) && negb (tspace t).","negb (tpunct t) || negb (tspace t).","C07","Words with or instead of and"),
("Stream.v","Lemmas","Where tlemma.","Where (fun t => negb (tlemma t)).","C07","Lemmas keeps the others"),
("Stream.v","distinct_pred","(negb found, if found then seen else tvalue t :: seen).","(negb found, [tvalue t]).","C08","Distinct only remembers the previous token"),
("Stream.v","distinct_pred","let found := smem (tvalue t) seen in","let found := smem (tvalue t) seen && negb (tpunct t) in","C08","Distinct lets punctuation through"),
("Stream.v","ApplyFilters","fold_left (fun outgoing f => f outgoing) filters s.","fold_right (fun f outgoing => f outgoing) s filters.","C09","filters applied in reverse order"),
("Stream.v","ApplyFilters","fold_left (fun outgoing f => f outgoing) filters s.","fold_left (fun outgoing f => f s) filters s.","C09","only the last filter applied"),
# tokenizer
("Tokenizer.v","tokenizer_next","| Some (x, sc') => Ret ((NewToken U x false, None), sc')","| Some (x, sc') => Ret ((NewToken U x true, None), sc')","C13","tokenizer makes lemmas"),
("Tokenizer.v","tokenizer_next","| Some e => Ret ((None, Some e), sc)\n    | None => Ret ((None, None), sc)","| Some e => Ret ((None, None), sc)\n    | None => Ret ((None, None), sc)","C13","tokenizer ignores the scanner's error"),
("Scanner.v","ScanB","mkB (sdrop (String.length p) (pend b)) (start b + String.length p)","mkB (sdrop (S (String.length p)) (pend b)) (start b + String.length p)","C14","scanner drops one byte too many"),
("Scanner.v","ErrB","match berr b with Some (RErr e) => Some e | _ => None end.","None.","C14","scanner forgets errors"),
("Scanner.v","ScanB","let start2 := if full then 0 else start1 in","let start2 := start1 in","C14","scanner does not reset start when growing"),
("Scanner.v","read_loop","| Some e => (x, Some e, r')","| Some e => (EmptyString, Some e, r')","C14","data delivered together with an error is dropped"),
# html
("Html.v","html_next_token","| Script | Style => h_atom ht\n        | _ => hs_parent st","| Script => h_atom ht\n        | _ => hs_parent st","C15, C16","style content is tokenized"),
("Html.v","html_next_token","Ret ((Some (mkToken (h_string ht') true false false), None),\n           mkHS parser' (hs_ttokens st) (hs_parent st))","Ret ((Some (mkToken (h_string ht') true false false), None),\n           mkHS parser' (hs_ttokens st) (if atom_eqb (h_atom ht) (hs_parent st) then AtomZero else hs_parent st))","C16","the end tag resets the parent (the bug is fixed)"),
("Html.v","html_next_token","let whole := mkToken (h_string ht) true false false in","let whole := mkToken (h_string ht) false false false in","C15","tags are not punctuation"),
("Html.v","html_next","| (None, None) => html_next_token fuel (mkHS (hs_parser st) None (hs_parent st))","| (None, None) => Ret ((None, None), mkHS (hs_parser st) None (hs_parent st))","C15","stream ends after a text node"),
("Html.v","html_next_token","| Some e => Ret ((None, Some e), st)\n    end","| Some e => Ret ((None, None), st)\n    end","C15","HTML read error swallowed"),
# filters
("Filters.v","stop_includes","if ignoreCase then strings_ToLower U s else s) words.","s) words.","C17","stop words not lower-cased in the map"),
("Filters.v","stop_loop","let key := if ignoreCase then strings_ToLower U (tvalue t) else tvalue t in\n      if smem","let key := strings_ToLower U (tvalue t) in\n      if smem","C17","stopwords always ignores case"),
("Filters.v","stop_loop","else Ret ((Some t, None), up')","else Ret ((NewToken U key (tlemma t), None), up')","C17","stopwords lower-cases the text"),
("Filters.v","apply_funcs","| Some t' => apply_funcs fs' (f t')","| Some t' => match f t' with None => apply_funcs fs' t | x => apply_funcs fs' x end","C19","a nil result keeps the token"),
("Filters.v","mapper_next","| (_, Some e) => Ret ((None, Some e), up')\n  | (None, None) => Ret ((None, None), up')\n  | (Some t, None) =>\n    do t' <- apply_funcs fs (Some t);","| (_, Some e) => Ret ((None, Some e), up')\n  | (None, None) => Ret ((None, None), up')\n  | (Some t, None) =>\n    do t' <- apply_funcs (rev fs) (Some t);","C18","mapping functions applied in reverse"),
("Filters.v","stem_token","if tpunct t || tspace t then Some t\n","if tpunct t then Some t\n","C25","stemmer stems white space"),
("Filters.v","stem_token","if seqb stemmed (tvalue t) then Some t else NewToken U stemmed true.","NewToken U stemmed true.","C25","stemmer marks unchanged words as lemmas"),
("Filters.v","stem_token","Some t else NewToken U stemmed true.","Some t else NewToken U stemmed false.","C25, C30","stems are not lemmas"),
("Filters.v","norm_token","if isNormal (tvalue t) then Some t else","if negb (isNormal (tvalue t)) then Some t else","C26","norm tests the wrong way"),
("Filters.v","norm_token","NewToken U (normalize (tvalue t)) true.","NewToken U (normalize (tvalue t)) (tlemma t).","C26, C30","norm does not mark lemmas"),
("Filters.v","tryExpansion","let key := if ignoreCase then strings_ToLower U (tvalue t) else tvalue t in\n  match assoc","let key := tvalue t in\n  match assoc","C27","contractions never ignore case"),
("Filters.v","contractions_next","do (found, err, out1) <- tryExpansion fuel (c_out st) t false;","do (found, err, out1) <- tryExpansion fuel (c_out st) t true;","C27","contractions look up lower case first"),
("Filters.v","contractions_next","(if (found : bool) then Ret (None, out1)\n           else","(if (negb found : bool) then Ret (None, out1)\n           else","C27","contractions expand twice, or never in lower case"),
("Filters.v","tryExpansion","| (toks, None) => Ret (true, None, q_push out toks)","| (toks, None) => Ret (true, None, q_push out (map (fun t => mkToken (tvalue t) (tpunct t) (tspace t) true) toks))","C30","expansions are lemmas (the bug is fixed)"),
("Filters.v","sigil_try","mkSS up' (s_prev st) (q_push (s_out st) [look]))","mkSS up' (s_prev st) (s_out st))","C31","sigil loses the token looked at"),
("Filters.v","sigil_next","| Some p => tspace p || tpunct p\n        end in","| Some p => tspace p\n        end in","C32","sigil only after white space"),
("Filters.v","sigil_next","| None => true\n        | Some p","| None => false\n        | Some p","C32","no sigil at the beginning"),
("Filters.v","sigil_try","NewToken U (sigil ++ tvalue look)%string true","NewToken U (tvalue look)%string true","C31","handle without its sigil"),
("Filters.v","sigil_next","do (t, q') <- q_pop (s_out st);\n    Ret ((Some t, None), mkSS (s_in st) (s_prev st) q')","do (t, q') <- q_pop (s_out st);\n    Ret ((Some t, None), mkSS (s_in st) (Some t) q')","C32","queued token becomes the previous token (half of the bug fixed)"),
("Filters.v","handle_loop","Nat.ltb 15 len'","Nat.ltb 16 len'","C33","handles of 16 characters"),
("Filters.v","handle_char","|| (r =? 95).","|| (r =? 45).","C33","dash instead of underscore in handles"),
("Filters.v","legalHashtag","if Nat.eqb length 1 then uIsLetter U","if Nat.eqb length 1 then uIsNumber U","C33","one-character hashtag of a digit"),
("Filters.v","Hashtags",'Sigil U "#"%string (legalHashtag U).','Sigil U "#"%string legalHandle.',"C32","hashtags tested as handles"),
# ascii
("Ascii.v","fold_step","if r <? 128 then","if r <? 256 then","C20, C22","Latin-1 left alone"),
("Ascii.v","fold_step","folded || flag)","flag)","C20, C21","folded only remembers the last rune"),
("Ascii.v","FoldString","if (folded : bool) then (b, true) else (s, false).","(b, folded).","C23","FoldString rewrites the string even if nothing is folded"),
("Ascii.v","folder","if (folded : bool) then NewToken U fold true else Some t.","NewToken U fold true.","C24","Fold marks every token as lemma"),
("Ascii.v","folder","if (folded : bool) then NewToken U fold true else Some t.","if (folded : bool) then NewToken U fold (tlemma t) else Some t.","C24, C30","folded tokens are not lemmas"),
# contraction generator
("ContractionsGen.v","apostrophes","(if contains_a s then [replace_a s] else []).","[].","C29","no typographic apostrophes"),
("ContractionsGen.v","cases","title; fun s => Ret (strings_ToUpper s)].","title].","C29","no upper case"),
# trie
("Trie.v","keep_rune","if nmem r (t_ignore t) then None else Some r.","Some r.","C34, C40","trie ignores no runes"),
("Trie.v","keep_rune","let r := if t_ignoreCase t then uToLower U r else r in","let r := uToLower U r in","C34","trie always ignores case"),
("Trie.v","search_loop","(true, n_canonical (snd pos'), S i) rest","(true, n_canonical (snd pos'), i) rest","C34","consumed is the index instead of the count"),
("Trie.v","search_loop","then search_loop t (S i) pos' (Some (fst pos')) (true, n_canonical (snd pos'), S i) rest","then (true, n_canonical (snd pos'), S i)","C34","shortest match instead of longest"),
("Trie.v","search_loop","if n_has (snd pos') && differs","if n_has (snd pos')","C34","trailing ignored tokens are consumed"),
("Trie.v","add_path","| [] => Node (n_children n) true canonical","| [] => Node [] true canonical","C34","Add cuts off the longer entries"),
("Trie.v","add_path","| [] => Node (n_children n) true canonical","| [] => if n_has n then n else Node (n_children n) true canonical","C34","the first canonical wins instead of the last"),
("Trie.v","SearchCanonical","None (false, EmptyString, 0%nat) tokens.","None (n_has (t_root t), n_canonical (t_root t), 0%nat) tokens.","C34","an entry without runes matches nothing consumed"),
# synonyms: build
("Synonyms.v","updateMaxWords","if Nat.ltb maxWords words then words else maxWords.","words.","C35","maxWords is that of the last key"),
("Synonyms.v","count_words","negb (tspace t) && negb (tpunct t)) tokens).","negb (tspace t)) tokens).","C35","punctuation counts as words in keys"),
("Synonyms.v","split_loop","split_loop all canonical rest (S i) (S i) true\n","split_loop all canonical rest (S i) (S i) false\n","C35","white space after a comma is kept"),
("Synonyms.v","split_loop","let sl := slice all start i in","let sl := slice all start (S i) in","C35","the comma is part of the synonym"),
("Synonyms.v","build_entry","let sl := skipn start tokens in\n    Ret (None, (trie_Add U (fst acc1) sl canonical, updateMaxWords sl (snd acc1)))","Ret (None, acc1)","C35","the last synonym of a key is forgotten"),
("Synonyms.v","build","(trie_New (cf_ignoreCase c) (cf_ignoreRunes c), 1);","(trie_New (cf_ignoreCase c) (cf_ignoreRunes c), 0);","C35","maxWords starts at 0"),
("Synonyms.v","build","| Some e => Ret (Some e, mkBuilt None 0)\n","| Some e => Ret (None, mkBuilt (Some (fst acc)) (snd acc))\n","C44","build swallows the error"),
# synonyms: next
("Synonyms.v","lead_loop","if tspace t || tpunct t then\n      let","if tspace t then\n      let","C38, C39","leading punctuation stays in the buffer"),
("Synonyms.v","fill_scan","fill_scan fuel k' up' buf (q_push out [t])","fill_scan fuel k' up' buf out","C39","white space before a word is lost"),
("Synonyms.v","fill_words","if tpunct t then Ret (None, up', buf')","if tpunct t then fill_words fuel k' maxWords wordcount up' buf'","C38","fill does not stop at punctuation"),
("Synonyms.v","fill_words","| (_, Some e) => Ret (Some e, up', buf)","| (_, Some e) => Ret (None, up', buf)","C11, C42","fill swallows an error"),
("Synonyms.v","run_loop","if tpunct t then end_\n","if tpunct t && false then end_\n","C38","word runs cross punctuation"),
("Synonyms.v","run_loop","if Nat.leb maxWords words' then end'","if Nat.ltb maxWords words' then end'","C38","word runs of one word too many"),
("Synonyms.v","syn_loop","do buf' <- q_drop (y_buf st1) consumed;\n                syn_loop b fuel k'","do buf' <- q_drop (y_buf st1) 1;\n                syn_loop b fuel k'","C38","a match consumes only one token"),
("Synonyms.v","syn_loop","if seqb canonical EmptyString then y_out st1\n","if seqb canonical EmptyString then q_push (y_out st1) (firstn consumed run)\n","C38","an empty canonical keeps the text"),
("Synonyms.v","syn_loop","else match NewToken U canonical true with","else match NewToken U canonical false with","C38, C30","canonicals are not lemmas"),
("Synonyms.v","syn_next","let '(buf', out') := q_flushto (y_buf st1) (y_out st1) in","let '(buf', out') := (q_clear (y_buf st1), y_out st1) in","C39","what is left in the buffer is lost at the end"),
("Synonyms.v","syn_closure","| Some e => Ret ((None, Some e), st)\n","| Some e => Ret ((None, None), st)\n","C44","the stream swallows the build error"),
# once
("Once.v","step","step i (mkState d l c t n b m) (mkState true l c t n b (upd m i (AtUnlock e)))","step i (mkState d l c t n b m) (mkState d l c t n b (upd m i (AtUnlock e)))","C43","done is not set"),
("Once.v","step","step i (mkState d None c t n b m) (mkState d (Some i) c t n b (upd m i AtRecheck))","step i (mkState d None c t n b m) (mkState d None c t n b (upd m i AtRecheck))","C43","the mutex is not taken"),
("Once.v","step","step i (mkState d l c t n b m) (mkState d None c t n b (upd m i (Made e)))","step i (mkState d l c t n b m) (mkState d l c t n b (upd m i (Made e)))","C43","the mutex is not released"),
("Once.v","step","step i (mkState false l c t n b m) (mkState false l c t n b (upd m i AtBuild))","step i (mkState false l c t n b m) (mkState true l c t n b (upd m i AtBuild))","C43","done is set before build"),
("Once.v","step","step i (mkState true l c t n b m) (mkState true l c t n b (upd m i (AtUnlock None)))","step i (mkState true l c t n b m) (mkState true l c t n b (upd m i AtBuild))","C43","no second test of done under the mutex"),
# queue
("Queue.v","q_drop","if Nat.leb n (length q) then Ret (skipn n q) else Panic.","Ret (skipn n q).","C45","Drop of too many does not panic"),
("Queue.v","q_push","q ++ ts.","ts ++ q.","C45","Push at the front"),
("Queue.v","q_flushto","(q_clear q, dst ++ q).","(q, dst ++ q).","C45","FlushTo does not clear"),
("SliceQueue.v","Drop","do s' <- sl_to s (Z.of_nat (s_len s) - n);","do s' <- sl_to s (Z.of_nat (s_len s));","C45","Drop does not shorten the queue"),
("SliceQueue.v","Drop","let '(h', k) := sl_copy (heap_ m) s rest in\n  do s' <- sl_to s (Z.of_nat (s_len s) - n);\n  Ret (k, put m i h' s').","Ret (0, put m i (heap_ m) rest).","C46, C47","Drop re-slices instead of copying (the cost is fixed)"),
("SliceQueue.v","FlushTo","Clear (put m dst h' d') i.","Ret (put m dst h' d').","C45","FlushTo does not clear (slices)"),
("SliceQueue.v","sl_append","if Nat.leb n (s_cap s) then","if Nat.ltb n (s_cap s) then","","append grows one cell too early (harmless for contents)"),
("Cost.v","moved","length q - n.","0.","C47","moves are not counted"),
# command line
("Cli.v","setInput","else if piped && has_file then (Some err_two_input, c')","else if false && has_file then (Some err_two_input, c')","C48","both inputs accepted"),
("Cli.v","setInput","if negb (piped || has_file) then","if negb (piped && has_file) then","C48","either input missing is an error"),
("Cli.v","setFilters","| [] => (None, c)\n  | arg :: args' =>\n    match assoc arg filterMap with\n    | None => setFilters c args' lang","| [] => (None, c)\n  | arg :: args' =>\n    match assoc arg filterMap with\n    | None => (None, c)","C49","filters after another argument are dropped"),
("Cli.v","add_filter","(cFilters c ++ [f])","(f :: cFilters c)","C49","filters in reverse order"),
("Cli.v","setFilters",'if seqb arg "-stem"%string && negb (seqb lang EmptyString) then','if false && negb (seqb lang EmptyString) then',"C49","-lang is ignored"),
("Cli.v","setFilters","| None => (Some (err_lang lang), c)","| None => setFilters (add_filter c filter) args' lang","C53","an unknown language is English"),
("Cli.v","filterMap",'("-lemmas", Lemmas); ("-distinct", Distinct);','("-lemmas", Distinct); ("-distinct", Lemmas);',"C49","-lemmas and -distinct swapped"),
("Cli.v","Flush","| None => (None, mkBW EmptyString None ws')","| None => (None, mkBW (bbuf b) None ws')","C51","Flush keeps the buffer"),
("Cli.v","write_all","| None => Ret (Flush b)\n      end\n  end.","| None => Ret (None, b)\n      end\n  end.","C51","no flush at the end"),
("Cli.v","write_all","match Err s' with\n      | Some e => Ret (Some e, b)\n      | None => Ret (Flush b)","match Err s' with\n      | Some e => Ret (Some e, snd (Flush b))\n      | None => Ret (Flush b)","C52","flush on an input error (the bug is fixed)"),
("Cli.v","write_all","| Some e => Ret (Some e, b1)\n        | None =>\n          if lines then","| Some e => write_all lines fuel k' b1 s'\n        | None =>\n          if lines then","C51, C52","a failing write is not reported at once"),
("Cli.v","write_all","let '(e, b2) := WriteByte b1 newline in","let '(e, b2) := WriteByte b1 \" \"%char in","C51","-lines separates with spaces"),
("Cli.v","write_tokens","(itoa n ++ String newline EmptyString)%string;","(itoa n)%string;","C51","-count without newline"),
("Cli.v","Available","size - String.length (bbuf b).","S size - String.length (bbuf b).","C51, C52","buffer of one byte more"),
("Cli.v","WriteString","WriteString k' b' (sdrop n s)\n    else","WriteString k' b' s\n    else","C51","text at the end of the buffer written twice"),
("Cli.v","setReader","else if (size <=? 1024 * 1024)%Z then size\n","else if (size <=? 2048 * 1024)%Z then size\n","C55","buffer of up to 2 MB"),
("Cli.v","setReader","if Pipedin c then set_reader c (NewReaderSize Stdin 65536)\n","if Pipedout c then set_reader c (NewReaderSize Stdin 65536)\n","C55, C51","reads standard input although a file is given"),
("Cli.v","setWriter","if Pipedout c then Some Stdout else","if Pipedin c then Some Stdout else","C55","-out ignored with piped input"),
("Cli.v","setOutput","(match file with None => true | Some _ => false end)","true","C55, C59","output file and pipe"),
("Cli.v","fs_Create","| Some i => (inl i, set_data f i EmptyString)","| Some i => (inl i, f)","C54, C59","the output file is not truncated"),
("Cli.v","main","if seqb e err_no_input then Ret (Usage, wo) else Ret (Failed e, wo)","Ret (Failed e, wo)","C53, C48","no usage without input"),
("Cli.v","flag_Parse","| String \"-\" (String c r) =>\n      if seqb s \"--\"%string then Some []","| String \"-\" (String c r) =>\n      if seqb s \"--\"%string then None","C59, C50","-- is an error"),
("Cli.v","get_string","match assoc name (rev set) with Some (VString s)","match assoc name set with Some (VString s)","C59","the first of two -file flags wins"),
# web
("Web.v","escape_char",'  | 60 => "&lt;"\n',"","C57, C56","< is not escaped"),
("Web.v","escape_char",'  | 34 => "&#34;"\n',"","C57, C56","quotes are not escaped"),
("Web.v","lemma_Execute","(span_open ++ escape (tvalue t) ++ span_close)%string.","(span_open ++ tvalue t ++ span_close)%string.","C57, C56","lemmas are not escaped"),
("Web.v","WriteHeader","| Some _ => r\n","| Some _ => mkResponse (Some n) (rheaders r) (rws r)\n","C56, C58","the last status counts"),
("Web.v","render_loop","match err with Some _ => WriteHeader 500 r | None => r end in","r in","C58","errors do not give 500"),
("Web.v","jargonHandler",'if seqb route "text" then','if seqb route "txt" then',"C56","other route"),
("Web.v","jargonHandler","(ApplyFilters [Tags] tokens);","tokens;","C56","Tags not applied"),
("Web.v","mainHandler",'if seqb (method q) "OPTIONS" then Ret r else','if false then Ret r else',"C56","OPTIONS handled as others"),
("Web.v","healthCheckHandler",'snd (rWrite "ok" (cors r)).','snd (rWrite "OK" (cors r)).',"C56","health check answers OK"),
("Web.v","cors",'"Access-Control-Allow-Origin" "*" r).','"Access-Control-Allow-Origin" "null" r).',"C56","origin not allowed"),
# second round
# redone or missed before
("Stream.v","writeto_loop","| None => writeto_loop w fuel k' (written + n) ws' s'","| None => writeto_loop w fuel k' (written + String.length (tvalue t)) ws' s'","C05","WriteTo counts the token instead of the bytes written (again)"),
("Filters.v","stop_includes","if ignoreCase then strings_ToLower U s else s) words.","if ignoreCase then (let _ := strings_ToLower U s in s) else s) words.","C17","stop words not lower-cased in the map (again)"),
("Cli.v","main","if seqb e err_no_input then Ret (Usage, wo) else Ret (Failed e, wo)","Ret (Failed e, wo)","C53","no usage without input (again)"),
("Cli.v","flag_Parse","if seqb s \"--\"%string then Some []","if seqb s \"--\"%string then None","C74","-- is an error (again)"),
("Cli.v","get_string","match assoc name (rev set) with Some (VString s)","match assoc name set with Some (VString s)","C74","the first of two -file flags wins (again)"),
("Cli.v","get_bool","match assoc name (rev set) with Some (VBool b)","match assoc name set with Some (VBool b)","C74","the first of two boolean flags wins"),
("Cli.v","ParseBool",'["0"; "f"; "F"; "false"; "FALSE"; "False"]%string then Some false','["0"; "f"; "F"; "false"; "FALSE"; "False"; "no"]%string then Some false',"C74","no is a boolean"),
("Cli.v","flag_Parse",'let name := if Ascii.eqb c "-"%char then r else String c r in','let name := String c r in',"C74","two dashes are not accepted"),
("Cli.v","formal",'("distinct", KBool);\n','("distinct", KString);\n',"C74","-distinct takes a value"),
("Web.v","jargonHandler","(ApplyFilters [Tags] tokens);","(let _ := Tags in tokens);","C56","Tags not applied (again)"),
("Web.v","healthCheckHandler",'snd (rWrite "ok" (cors r)).','snd (rWrite "OK" (cors r)).',"C75","health check answers OK (again)"),
("Web.v","cors",'"Access-Control-Allow-Origin" "*" r).','"Access-Control-Allow-Origin" "null" r).',"C75","origin not allowed (again)"),
("Web.v","healthCheckHandler",'snd (rWrite "ok" (cors r)).','cors (snd (rWrite "ok" r)).',"C75","headers set after the body"),
("Web.v","serve",'if seqb (path q) "/_ah/health" then','if seqb (path q) "/health" then',"C75","other path for the health check"),
("Web.v","address",'then "8080" else','then "80" else',"C75","default port 80"),
("Web.v","NotFound",'let r := set_header "Content-Type" "text/plain; charset=utf-8" r in','let r := set_header "Content-Type" "text/html" r in',"C75","404 as html"),
("Web.v","WriteHeader","| Some _ => r\n","| Some _ => mkResponse (Some (n, rheaders r)) (rheaders r) (rws r)\n","C56, C58","the last status counts (again)"),
# generators
("Generators.v","nba_loop",'(TrimSpace U s1 ++ " " ++ TrimSpace U s0)%string','(TrimSpace U s0 ++ " " ++ TrimSpace U s1)%string',"C60","last name first"),
("Generators.v","nba_loop","if (folded : bool) then synonyms ++ [fold] else synonyms","synonyms ++ [fold]","C60","the name twice if nothing is folded"),
("Generators.v","nba_loop","if (folded : bool) then synonyms ++ [fold] else synonyms","if (folded : bool) then [fold] else synonyms","C60","only the folded name"),
("Generators.v","nba_loop",'(TrimSpace U s1 ++ " " ++ TrimSpace U s0)%string','(s1 ++ " " ++ TrimSpace U s0)%string',"C60","first name not trimmed"),
("Generators.v","nba_loop","| parts => (None, Some (errorf name (length parts)))","| parts => nba_loop names' mappings","C60","names without a comma are skipped"),
("Generators.v","nba_loop","| parts => (None, Some (errorf name (length parts)))","| parts => (Some mappings, Some (errorf name (length parts)))","C60","the mappings so far with the error"),
("Generators.v","TrimSpace","(rev (drop_while sp (rev (drop_while sp (chunks s)))))","(drop_while sp (chunks s))","C60","TrimSpace only at the left"),
("Generators.v","gset","filter (fun kv => negb (seqb (fst kv) k)) m ++ [(k, v)]","m ++ [(k, v)]","C61, C60, C63","a map with duplicate keys"),
("Generators.v","filtered","map spaced (filter (fun s => negb (smem s ignore)) synonyms)","filter (fun s => negb (smem s ignore)) synonyms","C61","hyphens kept in synonyms"),
("Generators.v","filtered","map spaced (filter (fun s => negb (smem s ignore)) synonyms)","filter (fun s => negb (smem s ignore)) (map spaced synonyms)","C61, C62","exceptions tested after replacing hyphens"),
("Generators.v","filtered","map spaced (filter (fun s => negb (smem s ignore)) synonyms)","map spaced synonyms","C62","exceptions are not left out of synonyms"),
("Generators.v","synonyms_loop","if moderator tag then synonyms_loop its' mappings seen\n","if false then synonyms_loop its' mappings seen\n","C61","synonyms of moderator tags"),
("Generators.v","synonyms_loop","(f ++ seen)\n","seen\n","C61, C63","synonyms are not remembered"),
("Generators.v","synonyms_loop","      if Nat.eqb (length f) 0 then synonyms_loop its' mappings seen\n      else","      if false then synonyms_loop its' mappings seen\n      else","C61","an empty key"),
("Generators.v","names_loop","if moderator tag then names_loop its' mappings seen\n","if false then names_loop its' mappings seen\n","C61","moderator tags are included"),
("Generators.v","names_loop","if smem synonym ignore then names_loop its' mappings seen\n      else if","if smem (iname tag) ignore then names_loop its' mappings seen\n      else if","C62","names: exceptions tested before replacing hyphens (the bug is fixed)"),
("Generators.v","names_loop","else if smem synonym seen then names_loop its' mappings seen\n","else if false then names_loop its' mappings seen\n","C61, C63","names that are synonyms of others are included"),
("Generators.v","names_loop","(gset synonym (iname tag) mappings)","(gset (iname tag) (iname tag) mappings)","C61","names with hyphens as keys"),
("Generators.v","fetchTags","|| Nat.ltb 0 (String.length (errorMessage w))","","C61","an error message without a name is ignored"),
("Generators.v","pages_loop","if negb (hasMore w) then inl (mappings2, seen1)\n      else","","C61","pages after the last one are fetched"),
("Generators.v","pages_loop","(10 <? backoff w)%Z","(11 <? backoff w)%Z","C61","waits up to 11 seconds"),
("Generators.v","pages_loop","pages_loop site todo' (S page) mappings2 seen1","pages_loop site todo' page mappings2 seen1","C61","always the same page"),
("Generators.v","pages_loop","pages_loop site todo' (S page) mappings2 seen1","pages_loop site todo' (S page) mappings2 seen","C61, C63","seen is forgotten after a page"),
("Generators.v","pages_loop","inl (mappings2, seen1)\n      else if (10","inl (mappings1, seen1)\n      else if (10","C61","names of the last page are lost"),
("Generators.v","sites_loop","(count / 100) 1 mappings seen","(count / 100) 0 mappings seen","C61","pages start at 0"),
("Generators.v","sites",'[("stackoverflow"%string, 2000)]','[("stackoverflow"%string, 1900)]',"C61","19 pages"),
# rendering
("Render.v","escaped_rune","if (r =? 34) || (r =? 92) then","if (r =? 34) then","C66","backslashes are not escaped"),
("Render.v","escaped_rune","if (r =? 34) || (r =? 92) then","if (r =? 92) then","C66","quotes are not escaped in Go source"),
("Render.v","escaped_rune","(hexdigits 4 r)","(hexdigits 3 r)","C66","three digits after \\u"),
("Render.v","escaped_rune",'else if r =? 10 then String backslash "n"','else if r =? 10 then String backslash "N"',"C66","newline as \\N"),
("Render.v","escaped",'if r =? RuneError then String backslash (String "x" (hexdigits 2 (byte_of c)))','if r =? RuneError then encode_rune RuneError',"C66","invalid bytes become U+FFFD"),
("Render.v","hexdigit","87 + n","55 + n","C66","upper case hexadecimal digits (harmless for Go)"),
("Render.v","GoSyntax",'(fun kv => Quote (fst kv) ++ ":" ++ Quote (snd kv))%string','(fun kv => Quote (snd kv) ++ ":" ++ Quote (fst kv))%string',"C66","keys and values swapped"),
("Render.v","replace_from","(String.length old - 1) r","0 r","C66","replaced text is kept"),
("Render.v","broken_up",'ReplaceAll split (q ++ "}")%string (q ++ "," ++ nl ++ "}")%string','ReplaceAll split (q ++ "}")%string (q ++ nl ++ "}")%string',"C66","no comma after the last entry"),
("Render.v","write","| Some e => (Some e, None)\n  | None =>\n    match os_Create","| Some e => (None, None)\n  | None =>\n    match os_Create","C66","gofmt's error is swallowed"),
("Render.v","write","(e, Some content)","(None, Some content)","C66","the write error is swallowed"),
("Render.v","so_target",'"package stackoverflow"','"package nba"',"C66","wrong package"),
# Decl
("Decl.v","queue_String",'join " "','join ""',"C69","queue without spaces"),
("Decl.v","queue_String","Quote isPrint (tvalue t)","(String quote (tvalue t ++ String quote EmptyString))%string","C69","queue without escaping"),
("Decl.v","node_String",'if seqb canonical "" then "" else','if has then "" else',"C69","canonical not printed"),
("Decl.v","node_String",'(if has then tab ++ "HasCanonical: true," ++ nl else "")','""',"C69","HasCanonical not printed"),
("Decl.v","node_String",'"\': " ++ node_String child','"\': " ++ ""',"C69","children not printed"),
("Decl.v","trie_String",'(if ignoreCase then "IgnoreCase: true," ++ nl else "")','""',"C69","IgnoreCase not printed"),
("Decl.v","filter_String","if Nat.ltb 0 maxWords then","if Nat.ltb 1 maxWords then","C69","MaxWords 1 not printed"),
# files
("Cli.v","file_Write","set_data f i (data f i ++ v)%string)\n","set_data f i v)\n","C59, C51","each write replaces the file"),
("Cli.v","file_Write","let p := sfirst n v in ((String.length p, Some e), set_data f i (data f i ++ p)%string)","let p := sfirst n v in ((String.length p, None), set_data f i (data f i ++ p)%string)","C51, C59","short writes without an error"),
("Cli.v","target_writer","(r, mkWorld f (stdin wo) (stdin_mode wo) (stdout wo))\n","(r, mkWorld (fs wo) (stdin wo) (stdin_mode wo) (stdout wo))\n","C51, C59","writes to files are lost"),
# words
("Words.v","boundary","else if is_nl (lastc cx) then true ","else if false then true ","C70","no break after a newline"),
("Words.v","boundary","else if is_nl c then true ","else if false then true ","C70","no break before a newline"),
("Words.v","boundary","(match lastc cx, c with WCR, WLF => true | _, _ => false end) then false","false then false","C70","CR LF is split"),
("Words.v","word_segments","| (r, b) :: rest => seg_loop (advance (mkCtx WOther WOther WOther false) r) b rest","| (r, b) :: rest => seg_loop (advance (mkCtx WOther WOther WOther false) r) EmptyString rest","C14, C13, C70","the first rune is lost"),
("Words.v","advance","negb (is_nl (lastc cx))","true","C70","format characters after a newline continue the line"),
]
