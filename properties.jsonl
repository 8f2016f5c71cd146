{"id": "C01", "title": "Segment tiles the input", "statement": "With the splitting options unchanged since the dictionary was filled, Segment and ModeSegment never panic on any text, and the returned segments tile it: the first starts at byte 0, each starts where the previous ends, the last ends at len(text), none is empty, and the text of each segment's token is the corresponding byte range of the input with the splitter's ASCII lower-casing applied.", "quantifier": "every dictionary reachable by any history of dictionary operations, every byte string (valid UTF-8 or not), both modes", "why_tests_cant": "the panic and coverage conditions depend on which words happen to start and end where; tests sample a few sentences over one dictionary", "anchors": ["segmenter.go: Segment, ModeSegment, internalSegment, segmentWords", "token.go: Segment.Start, Segment.End, Token.Text"]}
{"id": "C02", "title": "Segment is a shortest path", "statement": "If every dictionary token has a positive path length (its distance), the segmentation returned by Segment has the smallest total path length, evaluated left to right in float32 exactly as the program does, among all ways to tile the split text with dictionary words and, for single split words that are not in the dictionary, fallback words of length 32 (in search mode: among all such tilings other than the whole text as one word).", "quantifier": "every dictionary with positive distances, every text, every alternative tiling", "why_tests_cant": "the number of alternative tilings is exponential in the text; a test compares with one expected answer", "anchors": ["segmenter.go: segmentWords, updateJumper"]}
{"id": "C03", "title": "Zero path length is confused with 'not visited'", "statement": "The shortest-path claim C02 fails when a token's path length is 0 (for example the only word of a dictionary, or a token added with AddToken and not yet recalculated): a strictly longer tiling is returned. (Refuted property, with witness.)", "quantifier": "existence of a reachable dictionary and a text", "why_tests_cant": "needs a proof that the optimum differs from what is returned, not an expected output", "anchors": ["segmenter.go: updateJumper, segmentWords", "dict_util.go: CalcToken"]}
{"id": "C04", "title": "Search mode never returns the whole text as one word", "statement": "ModeSegment in search mode returns nothing for a text that splits to one word, and otherwise always returns at least two segments, even if the whole text is a dictionary word.", "quantifier": "every dictionary reachable under fixed options and every text", "why_tests_cant": "universally quantified over dictionaries and texts", "anchors": ["segmenter.go: segmentWords"]}
{"id": "C05", "title": "Slice and Cut preserve the text", "statement": "The concatenation of the strings returned by Slice(s) (and Cut(s) without hmm argument) is s with the splitter's lower-casing applied; with ToLower off it is exactly s.", "quantifier": "every reachable dictionary, every byte string", "why_tests_cant": "losslessness is a statement about all inputs", "anchors": ["gse.go: Cut, Slice", "seg_utils.go: ToSlice"]}
{"id": "C06", "title": "Every segment is a dictionary word or a one-word fallback", "statement": "Each segment returned by Segment carries either a token currently findable in the dictionary under exactly its text, or a fallback token with one split word, frequency 1 and part of speech 'x'.", "quantifier": "every reachable dictionary, every text", "why_tests_cant": "quantifies over all dictionaries and texts", "anchors": ["segmenter.go: segmentWords", "dictionary.go: LookupTokens"]}
{"id": "C07", "title": "Changing AlphaNum after loading breaks Segment", "statement": "C01 does not survive changing the splitting options between filling the dictionary and segmenting: there is a dictionary filled with AlphaNum=true and a text for which Segment panics after AlphaNum is set to false, and one (false then true) for which the segments no longer tile the text. (Refuted property, with witnesses.)", "quantifier": "existence of a history", "why_tests_cant": "the failing histories have to be found by reasoning about the invariant that breaks", "anchors": ["segmenter.go: Segmenter.AlphaNum, segmentWords"]}
{"id": "C08", "title": "Sub-segment trees are well founded", "statement": "After CalcToken, every sub-segment listed by Token.Segments has a strictly shorter text than its token, so search-mode output (ToSlice, ToPos, ToString) terminates on every token; when no part is a single kana word the sub-segment texts concatenate to the token's text.", "quantifier": "every dictionary reachable by loading and calculating", "why_tests_cant": "termination of a pointer-chasing recursion over all dictionaries", "anchors": ["dict_util.go: CalcToken", "seg_utils.go: tokenToSlice, tokenToString, tokenToPos", "token.go: Token.Segments"]}
{"id": "C09", "title": "String, Slice and Pos agree", "statement": "For the same segments and mode, ToSlice returns exactly the texts of ToPos, and ToString is the concatenation of text/pos followed by a space over ToPos; in search mode the normal-mode words appear in order as a subsequence, and what is listed for a token is exactly the listings of its sub-segments from the first one that is itself divided or begins with kana onwards, then the token.", "quantifier": "every segment list over every token tree, both modes", "why_tests_cant": "three recursive renderings must agree on every tree", "anchors": ["seg_utils.go: ToString, ToSlice, ToPos, tokenToString, tokenToSlice, tokenToPos"]}
{"id": "C10", "title": "SplitTextToWords is lossless and non-empty", "statement": "The words returned by SplitTextToWords concatenate to the input with the splitter's lower-casing applied (byte count preserved, exactly the input if ToLower is off) and none is empty.", "quantifier": "every byte string, every combination of AlphaNum, Alpha, Num and ToLower", "why_tests_cant": "holds for all byte strings including invalid UTF-8", "anchors": ["segmenter.go: SplitTextToWords, toLow, toLower"]}
{"id": "C11", "title": "SplitTextToWords groups maximal alphanumeric runs", "statement": "The words are exactly the UTF-8 units of the text, with maximal runs of adjacent 1-2 byte letters/numbers fused into one lower-cased word (not fused if AlphaNum is set; Alpha and Num take letters resp. numbers out of the alphanumeric class).", "quantifier": "every byte string and option combination", "why_tests_cant": "maximality and exactness are universal statements", "anchors": ["segmenter.go: SplitTextToWords, SplitWords"]}
{"id": "C12", "title": "Splitting is stable", "statement": "Splitting the concatenation of any contiguous range of the words of a split text gives back exactly that range of words; in particular splitting is idempotent.", "quantifier": "every byte string, every contiguous range of its words, every option combination", "why_tests_cant": "this is the invariant that makes dictionary words line up with text words; it ranges over all texts and ranges", "anchors": ["segmenter.go: SplitTextToWords"]}
{"id": "C13", "title": "The dictionary behaves like a map with first-writer-wins insertion", "statement": "After any history of AddToken, ReAddToken and RemoveToken of listed words, Find of a word returns the frequency and part of speech of the first addition since that word's last removal, and reports a non-word with frequency 0.", "quantifier": "every operation history and every queried word", "why_tests_cant": "histories are unbounded", "anchors": ["dictionary.go: AddToken, RemoveToken, Find", "dict_util.go: AddToken, ReAddToken, RemoveToken"]}
{"id": "C14", "title": "What the existence flag of Find means", "statement": "The boolean returned by Find is true exactly when the query is a stored word or a non-empty proper prefix of one; it is not equivalent to 'is a dictionary word' (refuted by witness).", "quantifier": "every reachable dictionary and every query", "why_tests_cant": "quantifies over dictionaries and queries", "anchors": ["dictionary.go: Find", "dag.go: Find"]}
{"id": "C15", "title": "Counters of the dictionary", "statement": "NumTokens equals the number of additions that took effect, never decreases, and is not reduced by RemoveToken; MaxTokenLen is the largest number of split words among all tokens ever added; TotalFreq is the left-to-right float64 sum of the frequencies of all tokens ever added, including removed ones.", "quantifier": "every operation history", "why_tests_cant": "histories are unbounded", "anchors": ["dictionary.go: NumTokens, MaxTokenLen, TotalFreq, AddToken, RemoveToken"]}
{"id": "C16", "title": "LookupTokens finds exactly the words that start the text", "statement": "LookupTokens returns, in increasing length and without duplicates, exactly the dictionary tokens whose text is the concatenation of a non-empty prefix of the given words, and never overruns a buffer of MaxTokenLen entries when given at most MaxTokenLen words.", "quantifier": "every reachable dictionary, every word list", "why_tests_cant": "soundness and completeness over all dictionaries and texts", "anchors": ["dictionary.go: LookupTokens"]}
{"id": "C17", "title": "AddToken stores the normalised spelling", "statement": "After AddToken(text) takes effect the word findable is the concatenation of the split words of text (ASCII lower-cased in alphanumeric runs), so Find of the spelling passed to AddToken can fail (refuted for 'Hello' with ToLower on).", "quantifier": "every text; existence of a witness", "why_tests_cant": "relates two API calls over all texts", "anchors": ["dict_util.go: ToToken, AddToken", "dag.go: Find"]}
{"id": "C18", "title": "RemoveToken removes only its word; ReAddToken needs the word", "statement": "RemoveToken of a stored word makes only that word unfindable and leaves every other word's frequency and part of speech unchanged; ReAddToken of a word with no stored extension returns an error and does not add it; ReAddToken of a stored word makes Find return the new frequency.", "quantifier": "every reachable dictionary and every word", "why_tests_cant": "non-interference over all other words", "anchors": ["dict_util.go: RemoveToken, ReAddToken", "dictionary.go: RemoveToken"]}
{"id": "C19", "title": "Dictionary text lines are parsed and filtered as documented", "statement": "LoadDictStr adds exactly the lines with at least two separator-delimited fields (or one if LoadNoFreq) whose frequency parses, is not 0 and is at least MinTokenFreq, with one-rune words given frequency 2, in file order (a frequency out of the float64 range is accepted as an infinity); all other lines leave the dictionary unchanged.", "quantifier": "every dictionary text, every option combination", "why_tests_cant": "all texts", "anchors": ["dict_1.16.go: LoadDictStr", "dict_util.go: Size, LoadDictMap"]}
{"id": "C20", "title": "The first loaded dictionary wins", "statement": "When a word occurs several times in the loaded dictionary texts (in one or several loads), its first accepted occurrence determines the frequency and part of speech found, and later loads never change the frequency, part of speech or presence of a word already loaded.", "quantifier": "every sequence of LoadDictStr/LoadDictMap/AddToken calls", "why_tests_cant": "unbounded histories", "anchors": ["dict_util.go: LoadDict (documentation), Reader", "dict_1.16.go: LoadDictStr", "dictionary.go: AddToken"]}
{"id": "C21", "title": "LoadDict discards words loaded by the other loaders, and fails after Empty", "statement": "'Loading more words never loses words' is false: LoadDict called after LoadDictStr/LoadDictMap starts from an empty dictionary, and LoadDict after Empty never succeeds and panics when its files are readable. (Refuted property, with witnesses.)", "quantifier": "existence of histories", "why_tests_cant": "the failing histories involve the hidden Load flag", "anchors": ["dict_util.go: LoadDict, LoadDictMap, Empty", "dict_1.16.go: LoadDictStr"]}
{"id": "C22", "title": "One-field lines inherit the previous part of speech", "statement": "With LoadNoFreq set and the default separator, Reader gives a line with only a word the part of speech of an earlier line instead of none. (Refuted property, with witness.) On any text of lines of at most three fields, the entries read are exactly: three fields set the part of speech, two fields have none and reset it, one field has the one left over; a line without an acceptable frequency adds no word, but its part of speech is left over all the same.", "quantifier": "existence of an input", "why_tests_cant": "state carried across lines", "anchors": ["dict_util.go: Reader"]}
{"id": "C23", "title": "CutDAG without HMM preserves the text", "statement": "The concatenation of Cut(s,false)/CutDAGNoHMM(s) equals strings.ToLower(s) (or s itself, when s is valid UTF-8 and ToLower is off), and no returned word is empty.", "quantifier": "every dictionary, every string, every float behaviour of the probabilities", "why_tests_cant": "losslessness over all inputs", "anchors": ["dag.go: cutDAGNoHMM, calc, getDag", "gse.go: Cut, CutDAGNoHMM"]}
{"id": "C24", "title": "CutDAG with HMM preserves the text", "statement": "The concatenation of Cut(s,true)/CutDAG(s) equals strings.ToLower(s) (or s itself when valid UTF-8 and ToLower off), for the built-in expressions and for any user expressions that never match the empty string.", "quantifier": "every dictionary, every emission model, every string", "why_tests_cant": "losslessness over all inputs and models", "anchors": ["dag.go: cutDAG, hmm", "hmm/hmm_seg.go: Cut, internalCut"]}
{"id": "C25", "title": "The DAG lists exactly the dictionary words of the text", "statement": "For each position, the DAG used by CutAll and CutDAG lists exactly the ends of the dictionary words of positive frequency starting there, or the position itself if there is none.", "quantifier": "every reachable dictionary, every string, every position", "why_tests_cant": "soundness and completeness for all inputs", "anchors": ["dag.go: getDag"]}
{"id": "C26", "title": "CutDAG picks a maximum-weight route", "statement": "The route computed by calc has the largest total weight among all routes through the DAG, where the weight of a route is the right-to-left float64 sum the program computes (log frequency minus log total), and among equal weights the first step is the longest.", "quantifier": "every dictionary without NaN or +Inf logarithms, every string, every route", "why_tests_cant": "exponentially many routes", "anchors": ["dag.go: calc"]}
{"id": "C27", "title": "A prefix-only character destroys the route weights", "statement": "The route is not the most probable one when unknown characters count as frequency 1 (the program's own else-branch): a character that is a proper prefix of a dictionary word but not a word gets weight log 0 = -Inf, so the choice made for all earlier text ignores frequencies. (Refuted property, with witness.)", "quantifier": "existence of a dictionary and a text", "why_tests_cant": "requires comparing with all routes", "anchors": ["dag.go: calc, getDag", "dictionary.go: Find"]}
{"id": "C28", "title": "CutAll reports every dictionary word and covers the text", "statement": "CutAll returns exactly once every occurrence of a dictionary word of at least two characters, every returned string is an occurrence in the (lower-cased) text, and every character of the text is inside some returned string.", "quantifier": "every reachable dictionary, every string", "why_tests_cant": "completeness over all inputs", "anchors": ["dag.go: cutAll", "gse.go: CutAll"]}
{"id": "C29", "title": "CutSearch adds exactly the dictionary bigrams and trigrams", "statement": "CutSearch(s,hmm) returns the words of Cut(s,hmm) in order, each immediately preceded by its proper 2- and 3-character substrings that are dictionary words of positive frequency, in position order, and nothing else.", "quantifier": "every dictionary, every string", "why_tests_cant": "all inputs", "anchors": ["dag.go: cutForSearch"]}
{"id": "C30", "title": "SuggestFreq respects the stored frequency", "statement": "SuggestFreq(w) for one word is at least the stored frequency of w (at least 1 if w is unknown), and SuggestFreq(w1,...,wn) for several is at most the stored frequency of their concatenation (0 if unknown), for comparable (non-NaN) values.", "quantifier": "every dictionary, every word list", "why_tests_cant": "all inputs", "anchors": ["dag.go: SuggestFreq"]}
{"id": "C31", "title": "The HMM state path is legal", "statement": "For every non-empty input the Viterbi state path has the length of the input, ends in E or S, and every step is one of the allowed transitions (B to M/E, M to M/E, E to B/S, S to B/S), whatever the probabilities, including NaN.", "quantifier": "every rune sequence, every emission model", "why_tests_cant": "all inputs and models", "anchors": ["hmm/viterbi.go: Viterbi, probs"]}
{"id": "C32", "title": "The HMM state path is optimal", "statement": "Viterbi returns the largest probability (as the program's own float64 left-to-right sum) among all allowed state paths ending in E or S, and the returned path attains it.", "quantifier": "every rune sequence, every model without NaN and +Inf", "why_tests_cant": "4^n paths", "anchors": ["hmm/viterbi.go: Viterbi, probs"]}
{"id": "C33", "title": "HMMCut preserves the text and terminates", "statement": "HMMCut(s) with the built-in expressions, or with any user expressions that never match the empty string, terminates and its words concatenate to s (Han runs are re-encoded rune by rune); no word is empty.", "quantifier": "every string, every emission model, every pair of expressions", "why_tests_cant": "termination and losslessness for all inputs", "anchors": ["hmm/hmm_seg.go: Cut, internalCut, locJudge"]}
{"id": "C34", "title": "An expression that matches the empty string hangs or panics HMMCut", "statement": "'HMMCut terminates for every user expression' is false: a skip expression that matches empty at the start makes it loop forever while growing the result; a Han expression that matches empty makes it panic. (Refuted property, with witnesses.)", "quantifier": "existence of expressions and texts; for all step counts", "why_tests_cant": "non-termination cannot be observed by a test", "anchors": ["hmm/hmm_seg.go: Cut, internalCut", "hmm/viterbi.go: Viterbi"]}
{"id": "C35", "title": "The HMM model is process-global", "statement": "LoadModel and HMMCutMod of one Segmenter determine the emission table used by all later HMM cuts of every Segmenter; Init of any Segmenter without NotLoadHMM resets it to the default. So HMMCut's result depends only on the last model-setting call in the process history.", "quantifier": "every interleaved history of model-setting and cutting calls on any number of segmenters", "why_tests_cant": "unbounded histories over several instances", "anchors": ["gse.go: LoadModel, HMMCutMod, HMMCut", "hmm/hmm_seg.go: LoadModel", "dict_util.go: Init"]}
{"id": "C36", "title": "The part-of-speech Viterbi never gets stuck", "statement": "For every non-empty character sequence the part-of-speech Viterbi of package pos has at least one candidate state at every position (so it never panics), and its state path only uses transitions of the built-in table, with B/M/E/S positions in legal order.", "quantifier": "every rune sequence over the built-in transition and character tables, every map iteration order", "why_tests_cant": "6648 table rows and all sequences", "anchors": ["hmm/pos/viterbi.go: viterbi, probs", "hmm/pos/char_state_tab.go", "hmm/pos/prob_trans.go"]}
{"id": "C37", "title": "The part-of-speech tagger is independent of map iteration order", "statement": "The state path computed by package pos does not depend on the (random) iteration order of Go maps in viterbi, probs and init.", "quantifier": "every choice of iteration orders, every NaN-free model, every rune sequence", "why_tests_cant": "the schedule of map iteration is not under test control", "anchors": ["hmm/pos/viterbi.go: viterbi, probs", "hmm/pos/prob_trans.go: init"]}
{"id": "C38", "title": "RegexpSplit is lossless", "statement": "RegexpSplit with a capturing expression returns pieces that concatenate to the input, for every limit n other than 0.", "quantifier": "every string, every list of non-overlapping matches, every n", "why_tests_cant": "all inputs", "anchors": ["hmm/util/util.go: RegexpSplit"]}
{"id": "C39", "title": "pos.Segmenter.Cut preserves the text", "statement": "The texts of the SegPos returned by pos.Segmenter.Cut(s, hmm) concatenate to s for every valid UTF-8 s, with and without HMM.", "quantifier": "every dictionary, every valid UTF-8 string", "why_tests_cant": "losslessness over all inputs", "anchors": ["hmm/pos/pos_seg.go: Cut, cutDAG, cutDAGNoHMM, cutDetail, cutDetailInternal, bufn"]}
{"id": "C40", "title": "The first dictionary word loses its part of speech in package pos", "statement": "'pos.Dict.Pos returns the stored part of speech of every dictionary word' is false exactly for the word stored at index 0 and true for all other words.", "quantifier": "every reachable dictionary and word; existence of the witness", "why_tests_cant": "only one word of the dictionary is affected", "anchors": ["hmm/pos/dict.go: Pos"]}
{"id": "C41", "title": "pos.Segmenter compares unnormalised weights", "statement": "The route chosen by pos.Segmenter.Cut is not the most probable one because the log total is never set: it is the largest sum of log frequencies, which can prefer two words over the more probable single word. (Refuted property, with witness.)", "quantifier": "existence of a dictionary and a text; every history leaves the log total at 0", "why_tests_cant": "needs the invariant that no history sets the field", "anchors": ["hmm/pos/pos_seg.go: calc", "hmm/pos/dict.go: updateLogTotal"]}
{"id": "C42", "title": "Stop words behave as a set", "statement": "After any history of LoadStopArr, LoadStopStr, AddStop, AddStopArr, RemoveStop and EmptyStop that does not panic, IsStop(w) is true exactly if w was added after its last removal and the last EmptyStop; AddStop panics exactly when no stop map exists.", "quantifier": "every operation history, every word", "why_tests_cant": "unbounded histories", "anchors": ["stop.go: LoadStopArr, AddStop, AddStopArr, RemoveStop, EmptyStop, IsStop", "dict_1.16.go: LoadStopStr"]}
{"id": "C43", "title": "Stop, Trim, TrimSymbol, TrimPos, TrimPunct are order-preserving filters", "statement": "Each returns exactly the input elements that pass its documented test, in order (Trim/TrimSymbol after deleting symbols, spaces and punctuation from each), and for Stop, Trim and TrimSymbol the output contains no stop word (unless NotStop; TrimSymbol ignores stop words) and no empty string; applying the same filter twice changes nothing. TrimPos tests the word without its symbols, so it keeps a stop word that contains symbols (refuted by witness).", "quantifier": "every string list, every stop set", "why_tests_cant": "all inputs", "anchors": ["trim.go: Stop, Trim, TrimSymbol, TrimPos, TrimPunct, FilterSymbol"]}
{"id": "C44", "title": "TrimWithPos removes exactly the listed tags, and everything if none is listed", "statement": "TrimWithPos(se, p1..pn) with n >= 1 returns exactly the elements whose tag is none of p1..pn, in order; with no tag it returns nothing, so PosTrim without tags is always empty (refuting 'no tags listed means nothing removed').", "quantifier": "every tagged word list, every tag list", "why_tests_cant": "all inputs", "anchors": ["trim.go: TrimWithPos, PosTrim", "hmm/pos/pos_seg.go: TrimWithPos"]}
{"id": "C45", "title": "FilterHtml leaves no tag it recognises", "statement": "FilterHtml deletes exactly the left-to-right non-overlapping substrings <...> whose last character before the first > is a word character, '|', '=' or a double quote; the result contains no further such substring, so FilterHtml is idempotent.", "quantifier": "every byte string", "why_tests_cant": "idempotence over all inputs", "anchors": ["trim.go: FilterHtml"]}
{"id": "C46", "title": "SplitNum partitions into digit and non-digit runs", "statement": "SplitNum returns non-empty, alternately all-digit and digit-free strings that concatenate to the input.", "quantifier": "every byte string", "why_tests_cant": "all inputs", "anchors": ["trim.go: SplitNum, SplitNums"]}
{"id": "C47", "title": "CutStr and PosStr join with the separator", "statement": "CutStr(l, sep) is the elements of l joined by sep (default one space), so it can be undone by splitting when sep is one byte that no element contains ('no element contains sep' is not enough for longer separators: refuted by witness); PosStr joins text/pos likewise.", "quantifier": "every string list and separator", "why_tests_cant": "round trip over all inputs", "anchors": ["gse.go: CutStr, PosStr"]}
{"id": "C48", "title": "FindAllOccs lists disjoint occurrences right to left, but hangs on the empty word", "statement": "For non-empty searches FindAllOccs lists for each word its non-overlapping occurrences taken from the right, in strictly decreasing order, each a true occurrence, with no further occurrence fitting; the list is repeated as often as the word is searched for. For an empty search word it never returns (refuted termination).", "quantifier": "every byte string and search list; all step counts for the refutation", "why_tests_cant": "completeness over all inputs; non-termination is not testable", "anchors": ["dag.go: FindAllOccs"]}
{"id": "C49", "title": "Analyze reports true spans", "statement": "Analyze(words, text) never panics for non-empty words, returns one entry per word in order, and for every word occurring in the lower-cased text the reported span [Start,End) of that text is the word; with empty text the spans are contiguous from 0. Start offsets need not be increasing: the first of two equal words gets the last occurrence (refuted by witness).", "quantifier": "every word list, every text", "why_tests_cant": "index arithmetic over all inputs", "anchors": ["dag.go: Analyze, FindAllOccs"]}
{"id": "C50", "title": "Token.Equals, Text and Join are concatenation", "statement": "Token.Text and Join return the concatenation of the words and Token.Equals(s) is true exactly if s is that concatenation.", "quantifier": "every word list and string", "why_tests_cant": "all inputs, including the special-cased small lengths", "anchors": ["token.go: Equals, Text", "seg_utils.go: Join, textSliceToString, textSliceByteLen, textSliceToBytes"]}
{"id": "C51", "title": "ExtractTags returns the top-K distinct weighted words", "statement": "ExtractTags(text, k) for k >= 0 returns min(k, number of distinct kept words) entries without repeated text, in decreasing (weight, text) order, none of which is a stop word or shorter than two runes, and no omitted kept word has a larger weight; the result does not depend on map iteration order. A negative k panics. 'A word without entry counts with the default value' is false: a beginning of an entry counts with 0.", "quantifier": "every segmenter, text, k, and map iteration order", "why_tests_cant": "all inputs and schedules", "anchors": ["hmm/idf/tag_extracker.go: ExtractTags", "hmm/segment/segment.go: Segments.Less"]}
{"id": "C52", "title": "The default IDF is the median of added values, and 0 after loading a file", "statement": "After any sequence of Idf.AddToken calls the default weight is the element at index n/2 of the sorted added values; loading dictionaries never changes it, so after LoadIdf alone unknown words get weight 0. AddToken on a new Idf panics; every history that returns leaves a reachable dictionary.", "quantifier": "every operation history", "why_tests_cant": "histories are unbounded", "anchors": ["hmm/idf/idf.go: AddToken, LoadDict", "hmm/idf/tag_extracker.go: LoadIdf"]}
{"id": "C53", "title": "StopWord instances of package idf share one table", "statement": "'AddStop on one StopWord affects only that instance' is false: all instances created by NewStopWord share the package table, so after any history IsStopWord agrees on all instances, and an addition, removal or load by one is seen by all. LoadDict adds to the package variable: once a client has assigned another map to it, LoadDict of an older instance does not affect that instance.", "quantifier": "every interleaved history on any number of instances", "why_tests_cant": "aliasing across instances over all histories", "anchors": ["hmm/idf/stop_words.go: NewStopWord, AddStop, RemoveStop, IsStopWord, LoadDict"]}
{"id": "C54", "title": "TextRank ranks exactly the co-occurring words", "statement": "TextRankWithPOS(text, k, tags) returns the first k entries if k > 0 (else all) of the list of the words with an allowed tag that have another such word within four positions, without repeated text; TextRank uses the tags ns, n, vn and v. The scores are finite and follow the TextRank recurrence (damping 0.85, ten rounds, words in increasing order) on the graph of the counted pairs, and the list is in decreasing order of the weights, which are (score - min/10) / (max - min/10) for the least score min and the value max that the loop over the scores finds. If some score is visited after one that is not larger, the weights are positive and ordered as the scores; otherwise they are negative and the ranking is reversed. Hence 'the ranking does not depend on the iteration order of maps' and 'weights are positive' are false (refuted by witness); the order in which the result is built and the sorting algorithm do not matter.", "quantifier": "every segmenter, text, tag list, k, and iteration order of every map (at most 2^45 words)", "why_tests_cant": "all inputs and map iteration orders", "anchors": ["hmm/idf/textrank.go: TextRankWithPOS, addEdge, rank"]}
{"id": "C55", "title": "Concurrent readers do not interfere; a concurrent AddToken can crash a reader", "statement": "Any number of Segment and Find calls under any schedule of their accesses to the dictionary each return what they return alone, as long as no writer runs. 'Segment does not panic while another goroutine calls AddToken' is false: for every dictionary and every new word of at most MaxTokenLen units there is a schedule under which Segment panics (the word is in the trie before it is in Tokens), and Segment can panic even if all of AddToken happens at one moment (the buffer has the old MaxTokenLen). 'Two concurrent AddToken calls add both words' is false: for any two new words there is a schedule after which both stand for the token of the first.", "quantifier": "every schedule of any number of readers; existence of reader/writer and writer/writer schedules for every dictionary and new word", "why_tests_cant": "schedules are not under test control", "anchors": ["segmenter.go: segmentWords", "dictionary.go: AddToken, LookupTokens, Find", "tools/server/server.go: addToken, JsonRpcServer"]}
{"id": "C56", "title": "DictPaths", "statement": "DictPaths never returns a built-in path that was not asked for, lists the requested dictionaries in the order given (zh as traditional then simplified), and a bare language tag without dictionary ('ko', 'ti', or 'en' in a list) repeats the previous path instead of adding nothing (refuted by witness).", "quantifier": "every comma-separated list", "why_tests_cant": "all inputs", "anchors": ["dict_util.go: DictPaths"]}
{"id": "C57", "title": "UTF-8 decoding and re-encoding", "statement": "Converting a string to runes and back returns the string if and only if it is valid UTF-8; Range returns one string per rune and their concatenation is that re-encoding.", "quantifier": "every byte string", "why_tests_cant": "all byte strings", "anchors": ["trim.go: Range, RangeText, FilterEmoji", "dag.go: cutDAG ([]rune conversion)"]}
{"id": "C58", "title": "FilterEmoji, FilterSymbol, FilterLang are rune filters", "statement": "Each returns the re-encoding of exactly the runes passing its test, in order; FilterEmoji's output contains only runes below U+10000; each is idempotent. FilterLang does not filter by script: it keeps the letters of all scripts and panics for an unknown script if some rune is no letter (refuted).", "quantifier": "every byte string", "why_tests_cant": "all inputs", "anchors": ["trim.go: FilterEmoji, FilterSymbol, FilterLang"]}
{"id": "C59", "title": "Reader, LoadDict and LoadDictStr agree on well-formed text", "statement": "On a text of lines 'word freq pos' with single blanks, each ended by a newline, in valid UTF-8 and without other white space, with the default separator and LoadNoFreq off, Reader adds the same tokens as LoadDictStr, and LoadDict of a file with this text leaves the same dictionary as LoadDictStr of the text.", "quantifier": "every well-formed text, every dictionary state", "why_tests_cant": "two separate parsers have to agree on all texts", "anchors": ["dict_util.go: Reader, LoadDict", "dict_1.16.go: LoadDictStr"]}
{"id": "C60", "title": "Reader terminates, except on persistent read errors", "statement": "On every input that ends with io.EOF Reader returns and never panics (given a non-nil Dict); if reading keeps failing with another error, such as for LoadDict of a directory, Reader never returns.", "quantifier": "every byte string, every separator and option", "why_tests_cant": "termination over all inputs; non-termination", "anchors": ["dict_util.go: Reader, Read"]}
{"id": "C61", "title": "Text after the third field of a dictionary line is read as a further line", "statement": "With the default separator, text after the third field of a line read by Reader is not ignored: its first character is dropped and the rest is loaded as a line of its own. ('Extra fields are ignored' refuted; LoadDictStr does ignore them.)", "quantifier": "every well-formed line, every further text", "why_tests_cant": "behaviour of a library scanner in the middle of a line", "anchors": ["dict_util.go: Reader"]}
{"id": "C62", "title": "LoadDictEmbed list of texts", "statement": "With several texts separated by ', ', LoadDictEmbed loads all of them in order if 'zh,', 'zh_s,' and 'zh_t,' do not occur; if any of them occurs anywhere, the embedded dictionaries named are loaded in place of the first text, which is lost ('every listed text is loaded' refuted).", "quantifier": "every argument, every embedded dictionary", "why_tests_cant": "all inputs", "anchors": ["dict_1.16.go: LoadDictEmbed, loadZhST"]}
{"id": "C63", "title": "Blank lines with LoadNoFreq store an empty word", "statement": "With LoadNoFreq set, LoadDictStr of a text with an empty line (for example because it ends with a newline) stores the empty string as a word.", "quantifier": "every text with an empty line", "why_tests_cant": "all texts", "anchors": ["dict_1.16.go: LoadDictStr", "dict_util.go: Size"]}
{"id": "C64", "title": "The part-of-speech Viterbi path is the most probable candidate path", "statement": "For every non-empty character sequence the state path returned by package pos has the largest log-probability, summed in float64 in the program's order, among all paths through the candidate states (the states the character table allows for each character, or, where none of them can be reached, all reachable ones); among the most probable paths it ends in the largest state.", "quantifier": "every rune sequence, every emission table with values in [-3.14e100, 0], every map iteration order, every alternative path", "why_tests_cant": "exponentially many alternative paths; ties", "anchors": ["hmm/pos/viterbi.go: viterbi, probs", "hmm/pos/prob_trans.go", "hmm/pos/char_state_tab.go"]}
{"id": "C65", "title": "RegexpSplit limit", "statement": "RegexpSplit(r, s, n) with n > 0 returns at most n pieces without capturing groups, but with a capturing group it can return n+1 (never more). (The documented limit is refuted, with witness, and the true bound proved.)", "quantifier": "every string, every list of matches, every n > 0; existence of the witness", "why_tests_cant": "all inputs", "anchors": ["hmm/util/util.go: RegexpSplit"]}
{"id": "C66", "title": "Stop word files", "statement": "LoadStop adds exactly the lines of the listed files, in order, up to the first file that cannot be opened, and reports an error exactly if there is one; LoadStopEmbed adds exactly the trimmed lines of the listed texts. 'Every listed text is loaded' is false (a later 'zh' displaces the first text), and lines from the first one of 65536 or more bytes on are lost without an error (refuted by witnesses).", "quantifier": "every file system, every argument list, every stop map", "why_tests_cant": "unbounded files; the scanner limit", "anchors": ["stop.go: LoadStop, loadStop", "dict_1.16.go: LoadStopEmbed, LoadStopStr"]}
{"id": "C67", "title": "TrimPosPunct overwrites its argument", "statement": "TrimPosPunct returns exactly the elements whose text begins with a rune that is neither space nor punctuation and is no stop word (unless NotStop), in order; as a side effect it sets the text of every stop word of its argument to the empty string ('the argument is left unchanged' refuted).", "quantifier": "every tagged word list, every stop set", "why_tests_cant": "aliasing; all inputs", "anchors": ["trim.go: TrimPosPunct"]}
{"id": "C68", "title": "The composed cuts lose nothing but symbols, tags and stop words", "statement": "CutTrim with NotStop, CutTrimHtml and CutUrl return words whose concatenation is the cut text (without recognised tags for CutTrimHtml) with exactly the symbols, spaces and punctuation deleted, word by word as Cut divides that text (for CutUrl without num: with a space between digits and non-digits); CutStop drops exactly the stop words.", "quantifier": "every reachable dictionary, every byte string, every option", "why_tests_cant": "composition over all inputs", "anchors": ["trim.go: CutTrim, CutTrimHtml, CutTrimHtmls, CutUrl, CutUrls", "gse.go: CutStop"]}
{"id": "C69", "title": "Reader with a separator", "statement": "Reader with a DictSep adds, in order, exactly one entry for each line that has an acceptable frequency; a line keeps its newline and its first field is not trimmed; a last line without newline counts unless its first field is empty. On lines of three fields without white space it does the same as LoadDictStr, with or without a final newline; with LoadNoFreq it does not: a word alone on its line is stored with the newline (refuted by a witness).", "quantifier": "every text, every separator, every reachable dictionary, every configuration", "why_tests_cant": "unbounded texts; two loaders compared on all texts", "anchors": ["dict_util.go: Reader, Size", "dict_1.16.go: LoadDictStr"]}
{"id": "C70", "title": "LoadDict reads its files in order up to the first missing one", "statement": "LoadDict feeds the files named by its argument (both Chinese dictionaries if there is none) to Reader in order and then computes the distances; at the first file that cannot be opened it stops with an error, keeps the words read so far and leaves them without distances.", "quantifier": "every segmenter state with Load off or a reachable dictionary, every file system, every argument", "why_tests_cant": "all combinations of present and missing files", "anchors": ["dict_util.go: LoadDict, Read, DictPaths"]}
{"id": "C71", "title": "New and NewEmbed", "statement": "New returns unless a file keeps failing to be read; AlphaNum is set exactly if the second argument is 'alpha' (for NewEmbed 'alpha' or 'en'), the other options are the documented defaults, and the dictionary was built with the returned splitting options, so the guarantees for segmenting hold for it, also after an error. On well-formed text both constructors build the same dictionary, except with the option 'en', on which they disagree (refuted by a witness).", "quantifier": "every argument list, every file system, every embedded text", "why_tests_cant": "all arguments; reachability of the returned dictionary", "anchors": ["gse.go: New", "dict_1.16.go: NewEmbed, LoadDictEmbed"]}
{"id": "C72", "title": "tokenToBytes and tokenToString", "statement": "For every word of a reachable dictionary tokenToBytes renders the whole tree of sub-segments, children first; what tokenToString renders in search mode is a subsequence of it, in general a proper one ('they render the same' refuted).", "quantifier": "every reachable dictionary, every word", "why_tests_cant": "recursion over all token trees", "anchors": ["seg_utils.go: tokenToBytes, tokenToString"]}
{"id": "C73", "title": "newTag is the inverse of position and pos", "statement": "newTag(position, pos) fails exactly if position is not B, E, M or S or pos is not in the list of parts of speech; otherwise position() and pos() of the result return the arguments; every state of the tables is the tag made from its own position and part of speech.", "quantifier": "every pair of strings, every state", "why_tests_cant": "all strings", "anchors": ["hmm/pos/char_state_tab.go: newTag, position, pos"]}
{"id": "C74", "title": "Every history of API calls leaves a dictionary that segments", "statement": "Whatever sequence of loading, adding, removing, recomputing and emptying calls a Segmenter has gone through with fixed splitting options, its dictionary is missing or reachable, so Segment and ModeSegment return and tile every text (nothing without a dictionary). The sequences that return are described: every sequence does in which AddToken, AddTokenForce, RemoveToken, ReAddToken, CalcToken and Reader find a dictionary and no file fails half-way; the first five panic without one.", "quantifier": "every finite sequence of calls with every argument, every text", "why_tests_cant": "unbounded call sequences", "anchors": ["dict_util.go: AddToken, AddTokenForce, ReAddToken, RemoveToken, Empty, LoadDict, LoadDictMap, Reader, CalcToken", "dict_1.16.go: LoadDictStr, LoadDictEmbed", "segmenter.go: Segment, ModeSegment"]}
{"id": "C75", "title": "Segmenting a prefix that ends at a segment boundary", "statement": "If Segment cuts a text into segments, the text up to the start or the end of any of these segments is cut into exactly the segments before it (and that one); cutting the concatenation of any first words of Slice/Cut returns these words, so cutting is idempotent. Two texts with the same lower-cased form have the same segments in both modes. In search mode prefixes behave differently (refuted by a witness).", "quantifier": "every reachable dictionary, every text, every segment of the result", "why_tests_cant": "relation between results for infinitely many pairs of texts", "anchors": ["segmenter.go: Segment, internalSegment, segmentWords, SplitTextToWords", "seg_utils.go: ToSlice"]}
{"id": "C76", "title": "Cutting the rest of a text with the DAG", "statement": "If Cut without HMM returns the words a ++ b, then Cut of the concatenation of b returns b (given that lower-casing a character twice changes nothing more, when the text is lower-cased); in particular Cut is idempotent. For prefixes this is false (refuted by a witness).", "quantifier": "every reachable dictionary, every text, every split of the result", "why_tests_cant": "relation between results for infinitely many pairs of texts", "anchors": ["dag.go: cutDAGNoHMM, calc, getDag", "gse.go: Cut"]}
{"id": "C77", "title": "Results depend on the set of words only", "statement": "Two dictionaries that hold the same words with the same frequencies and tags and the same total give, after CalcToken, the same results for Find, Segment, Slice, Pos, String, Cut, CutAll, CutSearch and SuggestFreq; in particular the order in which words with integer frequencies summing up to at most 2^53 are added does not matter, and neither does the history that led to the same map and total. The total is needed: adding and removing a word changes how other texts are cut (refuted without it).", "quantifier": "every pair of histories, every text, every function of the segmenter", "why_tests_cant": "pairs of unbounded histories", "anchors": ["dict_util.go: AddToken, RemoveToken, CalcToken", "dictionary.go: AddToken, RemoveToken", "segmenter.go: segmentWords", "dag.go: Find, getDag, calc, cutDAG, cutAll, cutForSearch, SuggestFreq"]}
{"id": "C78", "title": "Words that do not occur in a text do not change its segmentation", "statement": "The segmentation of a text is determined by the tags and path lengths of those dictionary words that occur in the (lower-cased) text. AddToken of a word that does not occur in it changes no output for it, in either mode. After CalcToken this is false, as the new total changes all path lengths (refuted by a witness).", "quantifier": "every pair of reachable dictionaries, every text, every added word", "why_tests_cant": "pairs of dictionaries, all texts", "anchors": ["segmenter.go: segmentWords", "dictionary.go: LookupTokens, AddToken", "dict_util.go: AddToken, CalcToken"]}
{"id": "C79", "title": "Cutting a part of the result again", "statement": "If all path lengths of the dictionary words that occur in the text are whole numbers between 1 and M (M at least 32, the length given to unknown units), and the text is short enough for sums to be exact (bytes times M at most 2^24), then any run of consecutive words of Pos, concatenated and cut again, gives the same words and tags. A result word of one unit (one character, one alphanumeric run) always gives itself. In general it is false: rounding of the path sums makes a word of the result fall apart when cut alone (refuted by a witness).", "quantifier": "every reachable dictionary, every text, every run of words of the result", "why_tests_cant": "relation between results for infinitely many pairs of texts; rounding of sums", "anchors": ["segmenter.go: segmentWords, updateJumper", "dict_util.go: CalcToken", "gse.go: Pos"]}
{"id": "C80", "title": "Setting up a TagExtracter and when ExtractTags panics", "statement": "From the zero TagExtracter, every sequence of WithGse, LoadDict, LoadIdf, LoadIdfStr, LoadStopWords, Idf.AddToken (after one of the idf loads) and calls on other StopWords returns if the files can be read. Afterwards ExtractTags panics exactly if the last WithGse/LoadDict left no dictionary, topK is negative, or no idf values were loaded and the text has a word that counts (two or more characters, not a stop word); a StopWord exists whenever a dictionary does. Interleaving of the calls for the dictionary, the idf values and the stop words does not matter: LoadStopWords before WithGse has the same effect as after it, although WithGse makes a new StopWord.", "quantifier": "every finite sequence of set-up calls, every text, every topK", "why_tests_cant": "unbounded call sequences over shared maps", "anchors": ["hmm/idf/tag_extracker.go: TagExtracter, WithGse, LoadDict, LoadIdf, LoadIdfStr, LoadStopWords, ExtractTags", "hmm/idf/stop_words.go: NewStopWord, LoadDict, IsStopWord", "hmm/idf/idf.go: NewIdf, AddToken, LoadDict, Freq"]}
{"id": "C81", "title": "ASCII text is treated by fixed byte classes", "statement": "For ASCII text the results do not depend on the Unicode tables: splitting makes words of single bytes or of maximal runs of letters and digits (as the options say, lower-cased), ToLower maps A-Z to a-z, FilterSymbol drops exactly the 6 white space, 23 punctuation and 9 symbol bytes, FilterEmoji changes nothing, FilterLang keeps letters and what the script contains, TrimPunct drops a word exactly if all its bytes are white space or punctuation, TrimSpace strips exactly the white space at both ends. A byte that is not part of a character is a word of its own, is dropped as a symbol and is neither white space nor punctuation.", "quantifier": "every ASCII text, with or without a stray byte; every choice of Unicode tables; all options", "why_tests_cant": "all texts over all versions of the tables", "anchors": ["segmenter.go: SplitTextToWords, SplitWords", "trim.go: FilterSymbol, FilterEmoji, FilterLang, TrimPunct", "segmenter.go: toLower"]}
{"id": "C82", "title": "Setting up a pos.Segmenter or TextRanker and when they panic", "statement": "From the zero value, every sequence of WithGse and LoadDict returns if the files can be read. Afterwards Cut of package pos, TextRank and TextRankWithPOS panic exactly if the last call left no dictionary and the text has a character that is looked up (a Han character, an ASCII letter or digit, or one of + # & . _). A text without such characters gives the same result with any dictionary or none: its characters one by one (CR LF together), all tagged x, and no keywords.", "quantifier": "every finite sequence of set-up calls, every text, with and without HMM", "why_tests_cant": "unbounded call sequences, all texts", "anchors": ["hmm/pos/pos_seg.go: Segmenter, WithGse, LoadDict, Cut, getDag", "hmm/pos/dict.go: Dict, Freq, loadDict", "hmm/idf/textrank.go: TextRanker, WithGse, LoadDict, TextRankWithPOS, TextRank"]}
{"id": "C83", "title": "Several Segmenters that share a dictionary", "statement": "Copies of a Segmenter (an assignment, or WithGse) point to the same Dictionary. After any sequence of new Segmenters, copies and calls, each Segmenter is in the state that a single one reaches by the calls that count for it: its own, those on the one it was copied from before the copying, and those that change a dictionary made by the same call; making a dictionary or Empty counts for one Segmenter only. Such a sequence returns if each of these single sequences does. Copies of a Segmenter without a dictionary never affect each other; a copy of one with a dictionary stays equal to it until Empty or a LoadDict that makes a new dictionary. That a call on a copy leaves the original alone is false (refuted by a witness).", "quantifier": "every finite sequence of new Segmenters, copies and calls on any of them (sequential)", "why_tests_cant": "unbounded call sequences over a shared heap", "anchors": ["segmenter.go: Segmenter", "dict_util.go: LoadDict, LoadDictMap, Empty, AddToken, RemoveToken, ReAddToken, CalcToken", "dict_1.16.go: LoadDictStr, LoadDictEmbed", "hmm/idf/tag_extracker.go: WithGse", "hmm/pos/pos_seg.go: WithGse", "hmm/idf/textrank.go: WithGse"]}
{"id": "C84", "title": "The case of Latin letters does not matter", "statement": "With ToLower on (the default), two texts that differ only in the case of Latin letters give the same segments, words and tags (with the option Alpha off), the same DAG cuts (with or without HMM), CutAll and CutSearch, and AddToken, RemoveToken, ReAddToken treat them as the same word. False with the option Alpha, and false for package pos, which never finds a word written with capitals (both refuted by a witness).", "quantifier": "every dictionary, every pair of texts", "why_tests_cant": "relation between infinitely many pairs of texts, arbitrary bytes", "anchors": ["segmenter.go: SplitTextToWords, toLow, toLower", "dag.go: cutDAG, cutDAGNoHMM, cutAll", "dict_util.go: AddToken, RemoveToken, ReAddToken", "hmm/pos/pos_seg.go: Cut"]}
{"id": "C85", "title": "The part-of-speech tags do not influence the cuts", "statement": "Two dictionaries with the same words, frequencies and total, but other tags, give after CalcToken the same segments, words (Slice, the words of Pos, Cut, CutDAG, CutAll, CutSearch in both modes), frequencies and suggested frequencies. In particular two sequences of calls that differ only in the tags passed.", "quantifier": "every pair of reachable dictionaries, every text; every pair of call sequences", "why_tests_cant": "pairs of unbounded histories, all texts", "anchors": ["dict_util.go: AddToken, ReAddToken, CalcToken", "segmenter.go: segmentWords", "seg_utils.go: tokenToSlice", "dag.go: Find, getDag, calc, cutDAG, cutAll, cutForSearch, SuggestFreq"]}
{"id": "C86", "title": "The frequency SuggestFreq proposes for a word is enough to keep it whole", "statement": "In arithmetic without rounding: for a word without two neighbouring ASCII letters or digits, in any dictionary without negative frequencies and with a positive total, after AddToken (ReAddToken if the word is already there) with the frequency SuggestFreq returns, the cutters with and without HMM keep the word in one piece. Not true with neighbouring ASCII letters, and the frequency proposed for cutting a word into parts does not cut it: AddToken ignores it, ReAddToken adds it to the total without taking the old one off.", "quantifier": "every reachable dictionary with such frequencies, every word", "why_tests_cant": "all dictionaries; compares the weights of all ways to cut before and after the change", "anchors": ["dag.go: SuggestFreq, calc, cutDAG, cutDAGNoHMM", "dict_util.go: AddToken, ReAddToken", "dictionary.go: AddToken, RemoveToken"]}
{"id": "C87", "title": "Segment returns the most probable segmentation", "statement": "In arithmetic without rounding: after CalcToken, if every frequency is positive and below the total, the words Slice returns have the largest product of relative frequencies among all ways to read the words of the text as dictionary words and single unknown words (an unknown word counts 2^-32). In float32 this is false (refuted by a witness where rounding prefers a less probable reading).", "quantifier": "every reachable dictionary with such frequencies, every text", "why_tests_cant": "exponentially many readings of every text; real numbers", "anchors": ["segmenter.go: Segment, internalSegment, segmentWords, updateJumper", "dict_util.go: CalcToken", "seg_utils.go: ToSlice, tokenToSlice"]}
{"id": "C88", "title": "Pointers to tokens and kept results", "statement": "Segments point into the array of Dict.Tokens, which append may or may not move. However append grows its slices, a Segmenter working with such pointers gives after any history of AddToken, RemoveToken, CalcToken and re-initialisation exactly the output of one that works with indices. Segments a caller keeps across later changes still give the same ToSlice, ToPos and ToString; in search mode they still return and give the same words in the same order, possibly with others between (whether these appear depends on spare capacity; refuted by a witness that they do not change).", "quantifier": "every history before and after, every growth of the slices, every text and mode", "why_tests_cant": "capacity of slices is chosen by the runtime; unboundedly many histories", "anchors": ["dict_util.go: AddToken, RemoveToken, CalcToken", "segmenter.go: Segment, segmentWords", "dictionary.go: Dictionary", "token.go: Token, Segment", "seg_utils.go: ToSlice, ToString, ToPos"]}
{"id": "C89", "title": "Results share memory with the argument", "statement": "The words of SplitTextToWords and the segments of words that are not in the dictionary are parts of the caller's []byte: when the caller overwrites the array they read as what is now at their place. Segments of dictionary words do not change, and with ToLower neither do words of letters and digits. That the argument may be reused is refuted by a witness.", "quantifier": "every reachable dictionary, text, mode and new content of the array", "why_tests_cant": "all contents of the array before and after", "anchors": ["segmenter.go: Segment, internalSegment, segmentWords, SplitTextToWords, toLow, toLower", "token.go: Text"]}
{"id": "C90", "title": "A text can be segmented sentence by sentence, up to rounding", "statement": "What stands before a character that is in no dictionary word (and is not a letter or digit) is segmented as if it were the whole text. In arithmetic without rounding, after CalcToken and with every frequency positive and below the total, what stands behind any segment is segmented as if it were the whole text, and segmenting the parts around such a character gives the segmentation of the whole. In float32 this is false: after 64 full stops a three character text is cut differently than on its own (refuted by a witness).", "quantifier": "every reachable dictionary with such frequencies, every text and separator", "why_tests_cant": "all texts and positions in them; real numbers; the float32 failure needs a long prefix", "anchors": ["segmenter.go: Segment, internalSegment, segmentWords, updateJumper, SplitTextToWords", "dict_util.go: CalcToken", "seg_utils.go: ToSlice, tokenToSlice"]}
{"id": "C91", "title": "The cutters of the DAG family depend only on the words of the text", "statement": "CutAll depends only on which substrings of the (lower-cased) text are dictionary words of positive frequency: AddToken and RemoveToken of a word that does not occur in the text do not change it. Cut, CutDAG and CutSearch, with or without HMM, depend only on the frequencies of the substrings, on whether a dictionary word begins with them, and on the total: RemoveToken of a word of which no beginning occurs in the text changes nothing. That the words occurring in the text decide (with an equal total) is false for them: adding a longer word of frequency 0 changes how a text without it is cut (refuted by a witness).", "quantifier": "every pair of reachable dictionaries, every text, HMM model and regexp matcher", "why_tests_cant": "pairs of dictionaries that differ in unboundedly many words, all texts", "anchors": ["dag.go: Find, getDag, calc, hmm, cutDAG, cutDAGNoHMM, cutAll, cutForSearch", "dict_util.go: AddToken, RemoveToken", "dictionary.go: Find, AddToken, RemoveToken"]}
{"id": "C92", "title": "Segmenting while words are removed and distances recomputed", "statement": "Any number of Segment, Find, RemoveToken and CalcToken calls running at once under any schedule: none panics; each one that keeps getting steps returns; Segment returns segments that tile the text with tokens of the initial dictionary, Find the entry of the initial dictionary or nothing; a word whose RemoveToken has returned is gone, no word appears, and words that do not begin with a removed one stay. If the removed words do not occur in the text and CalcToken does not run, Segment (and Find of a stored word) returns what it returns alone. That results are those of some order of the calls is refuted: Find can report a word that exists with frequency 0, for every stored word without longer ones, and Segment can mix distances from before and after CalcToken.", "quantifier": "every reachable dictionary, every list of such calls, every finite schedule and every infinite one that is fair to the call", "why_tests_cant": "exponentially many interleavings; the race detector reports races but not their results", "anchors": ["segmenter.go: Segment, ModeSegment, internalSegment, segmentWords, updateJumper", "dictionary.go: LookupTokens, Find, RemoveToken", "dict_util.go: RemoveToken, CalcToken"]}
{"id": "C93", "title": "The output of String can be read back", "statement": "If no token of the dictionary has a slash behind the first byte of its text or a space in its tag, a simple reader (first byte, up to the next slash, up to the next space) recovers exactly the pairs of Pos from the output of String, for every text, including texts with slashes and spaces of their own, in both modes. Hence two different (normalised) texts never print the same, even with different dictionaries and options. Without the condition this is false: one dictionary and two texts with the same output (refuted by a witness).", "quantifier": "every pair of reachable dictionaries meeting the condition, every pair of texts", "why_tests_cant": "a statement about all pairs of inputs", "anchors": ["gse.go: String, Pos, Slice", "seg_utils.go: ToString, tokenToString, ToPos, tokenToPos, Join", "segmenter.go: SplitTextToWords, segmentWords"]}
{"id": "C94", "title": "Bytes are read and written by RFC 3629, and the filters follow the character classes", "statement": "Every byte string, valid or not, is read as the characters of the UTF-8 table of RFC 3629, each byte with which no character begins counting as U+FFFD; encoding is the inverse, with U+FFFD for what is no character. The class tests agree with explicit ASCII lists and the Unicode tables. FilterSymbol, FilterEmoji, FilterLang and the range helpers write exactly the characters of their classes (so FilterSymbol also drops stray bytes), and IsJp holds exactly for texts with kana.", "quantifier": "every byte string, character and Unicode table", "why_tests_cant": "all byte strings, in particular invalid ones", "anchors": ["trim.go: FilterSymbol, FilterEmoji, FilterLang, Range, RangeText", "dict_util.go: IsJp", "segmenter.go: SplitTextToWords"]}
{"id": "C95", "title": "What CalcToken has done when it returns, while other goroutines run", "statement": "Calls of Segment, Find, RemoveToken and CalcToken run at once under any schedule, from any reachable dictionary. From the moment one CalcToken has returned, every token has the distance log2(total) - log2(freq) of the formula, also while another CalcToken is still half way. Without RemoveToken the whole dictionary, sub-segments included, is then exactly the one a single CalcToken gives, and every Segment or Find that starts later returns what it returns alone on it. With RemoveToken the sub-segments can be those of neither order of the two calls (refuted by a witness).", "quantifier": "every reachable dictionary, every list of such calls, every schedule and every moment in it", "why_tests_cant": "all interleavings; intermediate states cannot be observed by tests", "anchors": ["dict_util.go: CalcToken, RemoveToken", "dictionary.go: LookupTokens, Find, RemoveToken", "segmenter.go: Segment, segmentWords"]}
{"id": "C96", "title": "The answers of the demonstration server", "statement": "For every sequence of requests to tools/server the handlers never panic and every answer, read by an RFC 8259 reader, is a JSON text. /json gives exactly the words and tags of Pos (with the hmm flag: the words of Cut), and the words put together are the characters that were sent, capitals made small and stray bytes as U+FFFD, whatever quotation marks, control characters or invalid UTF-8 the text has; the text is the first text parameter of the query or else of the body. /add stores a new word with the given frequency and tag; for a word that is already there it changes nothing Find can see, although it answers ok.", "quantifier": "every reachable dictionary, sequence of requests, parameter list and byte string", "why_tests_cant": "all byte strings and request sequences; escaping errors show on rare characters only", "anchors": ["tools/server/server.go: JsonRpcServer, addToken", "segmenter.go: Segment", "gse.go: Cut", "dict_util.go: AddTokenForce"]}
{"id": "C97", "title": "The worker pool finishes and loses no line", "statement": "In tools/benchmark/goroutines (workers that range over a channel of lines, segment each with the shared dictionary, and report on a second channel), for every number of workers and channel capacity of at least one, no schedule deadlocks: until main has heard from every worker some goroutine can go on, and a worker never waits when it reports. There is a number of rounds after which main has finished under every schedule that gives each goroutine a turn per round. When main has finished, the Segment calls that have returned are exactly those for every line the given number of times, each with the result it has alone, the dictionary is unchanged and no goroutine has anything left to do.", "quantifier": "every reachable dictionary, list of lines, number of runs, workers and capacity at least one, and every schedule", "why_tests_cant": "schedules cannot be enumerated; a lost line or a deadlock may need a rare order of events", "anchors": ["tools/benchmark/goroutines/goroutines.go: worker, main", "segmenter.go: Segment"]}
{"id": "C98", "title": "The built-in emission tables are those of the source and fit the taggers", "statement": "With the 35,224 emission constants of package hmm and the 89,290 of package pos: the probability the taggers look up for a state and a character is the float64 nearest to the one decimal constant the source has for them, and none if it has none. Every state that the char-state table lists for a character has an emission, except U+8DDB as a one-character adjective (state 400). With these tables HMMCut always finds a legal state path of greatest float64 probability, and the part-of-speech tagger a most probable path that does not depend on map order; no hypothesis on tables is left. Two expectations are refuted by witnesses: the emissions of a state are no distribution (two characters with probability one), and characters with emissions are missing in the char-state table, so that all 256 states are tried for them.", "quantifier": "every state and character, every text, every float64 environment and map order", "why_tests_cant": "124,514 constants and all texts; a wrong or doubled constant changes only texts with that character", "anchors": ["hmm/prob_emit.go: loadDefEmit", "hmm/pos/prob_emit.go: probEmit", "hmm/pos/char_state_tab.go: charStateTab", "hmm/viterbi.go: Viterbi", "hmm/pos/viterbi.go: viterbi"]}
{"id": "C99", "title": "Missing emissions are avoided whenever that is possible", "statement": "With any emission table of logarithms between -64 and 0 (the built-in one is such a table), if some legal state path of a run of characters has an emission for every character in its state, then the path HMMCut chooses has one for every character too; float64 rounding cannot make a path with a missing emission (-3.14e100) win, whatever the length of the text. Hence, with the built-in table, a Han character that the table has only in state S (6,096 characters) is always cut as a word of its own when all characters of the run have a state S emission, and the words before and after it are cuts of the text before and after it.", "quantifier": "every text of any length, every such table, every float64 environment", "why_tests_cant": "unbounded float64 sums; thousands of characters and all texts around them", "anchors": ["hmm/viterbi.go: Viterbi, probs", "hmm/prob_emit.go: loadDefEmit", "hmm/hmm_seg.go: Cut, internalCut"]}
{"id": "C100", "title": "An unknown character decides the cut of the whole run", "statement": "With the built-in table, let a run of Han characters contain a character without any emission (6,271 characters of the basic block, for instance U+4E21) and let all other characters have a state S emission or be unknown as well. Then -3.14e100 absorbs all probabilities in float64 and ties are broken in favour of S: every character from the one before the first unknown character to the end of the run is a word of its own, whatever the table says about them, and the text before is cut by the best path that ends in S. That the chosen path is the most probable one in exact arithmetic is refuted by a witness.", "quantifier": "every text, every position of the first unknown character, every float64 environment", "why_tests_cant": "all texts; tests with known characters never reach these ties", "anchors": ["hmm/viterbi.go: Viterbi, probs, Less", "hmm/prob_emit.go: loadDefEmit", "hmm/hmm_seg.go: Cut, internalCut"]}
{"id": "C101", "title": "The tagger avoids impossible starts and missing emissions", "statement": "With emission values in [-64, 0] (proved of the built-in table), if some candidate path of the part-of-speech tagger starts in a state with a possible start probability and has an emission for every character, then the chosen path has both as well, and its first state is the first or the only character of a word. Without that hypothesis 'the path begins where a word can begin' is refuted (U+56E1 is only known as the end of a word), and 'the path ends where a word can end' is refuted even with it: unlike package hmm, package pos does not restrict the last state.", "quantifier": "every non-empty character sequence, every candidate path, every emission table with values in [-64, 0], every order of map iteration", "why_tests_cant": "all texts and tables; the tests tag a few sentences", "anchors": ["hmm/pos/viterbi.go: viterbi, Less", "hmm/pos/prob_start.go", "hmm/pos/prob_trans.go", "hmm/pos/prob_emit.go", "hmm/pos/char_state_tab.go"]}
{"id": "C102", "title": "Segment is nearly shortest in exact arithmetic", "statement": "Segment adds path lengths in float32, so the segmentation it returns need not be the shortest one in exact arithmetic (a witness shows it). The loss is bounded: if all stored path lengths are positive, the text has n units with n at most 2^20, and some tiling of the text has finite path lengths with an exact sum r of at most 2^127, then all path lengths of the returned segmentation are finite and their exact sum is at most r * (1 + n / 2^22). In search mode the same holds among the tilings with more than one word.", "quantifier": "every reachable dictionary with positive path lengths, every text of at most 2^20 units, every tiling", "why_tests_cant": "all texts and all tilings; rounding errors accumulate with the length of the text", "anchors": ["segmenter.go: segmentWords, updateJumper", "token.go: Token", "dict_util.go: CalcToken"]}
{"id": "C103", "title": "The HMM cut is nearly most probable in exact arithmetic", "statement": "The Viterbi search of package hmm adds rounded constants in float64. If a legal state path that ends in E or S has an emission for each of the N characters (N at most 2^48) and the exact sum of the decimal constants of the source along it is n (in units of 10^-17, negative), then the chosen path has all its emissions too and its exact sum n0 satisfies n0 >= n * (1 + N / 2^50). This covers the rounding of the 35,224 constants as well as that of the sums.", "quantifier": "every sequence of at most 2^48 characters, every legal state path with emissions, every float64 environment", "why_tests_cant": "all texts; the constants of the source are decimal and the program never sees their exact sums", "anchors": ["hmm/viterbi.go: Viterbi", "hmm/prob_trans.go: probTrans", "hmm/prob_emit.go: loadDefEmit"]}
{"id": "C104", "title": "The DAG cutters are nearly most probable among exact products of relative frequencies", "statement": "Cut and CutDAG compare float64 sums of logarithms. Let the total be t > 1, every stored frequency 0 or between 1 and t, and math.Log accurate to a relative error of 2^-52 on those numbers (with Log 0 = -Inf). The pieces chosen for a text of n <= 2^20 characters then have an exact probability p (the product of frequency/t, an unknown piece counting 1/t), and no other way to tile the text with positive words and single characters has a probability above p * t^(n^2/2^48). The same holds for the pieces that the HMM then regroups.", "quantifier": "every reachable dictionary, every text of at most 2^20 characters, every way to tile it, every float64 environment with an accurate logarithm", "why_tests_cant": "all texts; the program never sees exact probabilities, so no test can compare with them", "anchors": ["dag.go: calc", "dag.go: cutDAG", "dag.go: cutDAGNoHMM"]}
{"id": "C105", "title": "Segment is nearly most probable among exact products of relative frequencies", "statement": "The float32 counterpart of C87: after CalcToken, let the total be t with 1 <= t <= 2^64, every stored frequency at least 1 and below t by a factor of at least 1 + 2^-12, and math.Log2 accurate to 2^-40 (absolute) on those numbers. Slice of a text of n <= 2^20 units then returns a reading whose exact probability p (product of frequency/t, 2^-32 for an unknown unit) satisfies q^(1 + n/2^22) <= p * 2^(n/2^13) for the probability q of every reading of the text. This covers the rounding of the logarithms to float32, of their differences and of the sums.", "quantifier": "every dictionary reachable by API calls followed by CalcToken, every text of at most 2^20 units, every reading, every environment with an accurate Log2", "why_tests_cant": "all texts and readings; the program never sees exact probabilities", "anchors": ["dict_util.go: CalcToken", "segmenter.go: segmentWords"]}
{"id": "C106", "title": "The part-of-speech tagger is nearly most probable in exact arithmetic", "statement": "The Viterbi search of package pos adds table values in float64. With emission values in [-64, 0] (proved of the built-in table): if a candidate path with a possible start and an emission for each of the n <= 2^48 characters has the exact sum r of its start, transition and emission values (r <= 0), then the chosen path also has a possible start and all its emissions, and its exact sum is at least r * (1 + n/2^50), whatever the iteration order of the maps.", "quantifier": "every sequence of at most 2^48 characters, every candidate path, every emission table of logarithms, every map iteration order", "why_tests_cant": "all texts; the program never sees exact sums", "anchors": ["hmm/pos/viterbi.go: viterbi", "hmm/pos/viterbi.go: probs"]}
{"id": "C107", "title": "ExtractTags ranks nearly by exact TF-IDF weights", "statement": "ExtractTags multiplies and divides in float64. The exact weight of a word is its IDF value (the default value if not found) times the number of its occurrences among the words that count, divided by the number of words that count. If the IDF values are 0 or in [2^-900, 2^900] and at most 2^53 words are cut, every returned weight is the exact weight up to a relative 2^-51, and a tag is never ranked below, or left out in favour of, a tag whose exact weight is smaller by more than a relative 2^-50.", "quantifier": "every text of at most 2^53 words, every IDF dictionary with such values, every sorting function and map iteration order, every number of tags", "why_tests_cant": "all texts and dictionaries; the program never sees exact weights", "anchors": ["hmm/idf/tag_extracker.go: ExtractTags", "hmm/idf/idf.go: Freq"]}
{"id": "C108", "title": "TextRank ranks nearly by exact scores", "statement": "The exact score of a word comes from the recurrence of TextRank in real numbers: every word starts with 1 over the number of words; in each of ten rounds the words in increasing order get 0.15 + 0.85 times the parts passed on by their partners in the pairs of near words, each of which splits its current score equally among its pairs. The pairs determine the exact scores. For at most 2^40 words cut, the words are returned either in decreasing order of their exact scores with positive weights, or in increasing order with negative weights, in both cases up to a relative n/2^42 (n the number of words cut).", "quantifier": "every text of at most 2^40 words, every dictionary, part-of-speech filter, sorting function and iteration order of the maps, every number of tags", "why_tests_cant": "all texts and iteration orders; the program never sees exact scores; which of the two orders appears depends on the order of a map iteration", "anchors": ["hmm/idf/textrank.go: TextRankWithPOS, rank"]}
{"id": "C109", "title": "The frequency SuggestFreq proposes is enough in float64 as well", "statement": "C86 without exact arithmetic: let math.Log be -Inf at 0, monotone and accurate to a relative 2^-52 from 1 on (the correctly rounded logarithm is), the total t > 1, every stored frequency 0 or between 1 and t, and w a word of n characters without two neighbouring ASCII letters or digits. If n^2 * t <= 2^38, then after AddToken (ReAddToken if the word is already there) with the float64 frequency SuggestFreq returns, the cutters with and without HMM keep w in one piece.", "quantifier": "every reachable dictionary with such frequencies, every such word, every environment with such a logarithm", "why_tests_cant": "all dictionaries and words; the margin is one in t, against the rounding of sums of logarithms", "anchors": ["dag.go: SuggestFreq, calc, Cut", "dict_util.go: AddToken, ReAddToken"]}
{"id": "C110", "title": "Changing one word's frequency with ReAddToken", "statement": "In exact arithmetic, let the frequency of a stored word w be changed from a > 0 to a' > 0 with ReAddToken, followed by CalcToken; every stored frequency is positive and below the total. For every text, Segment finds w at least as often as before if a < a', not more often if a' < a, unless it reads the text with fewer dictionary words than before; for a' = a it uses at most as many dictionary words as before. The exception is real (ReAddToken adds a' to the total without taking a off): raising the frequency of a word can make Segment and Cut no longer find it.", "quantifier": "every reachable dictionary with such frequencies, every stored word, every two frequencies, every text", "why_tests_cant": "relates two runs over all texts; the exception needs particular frequencies", "anchors": ["dict_util.go: ReAddToken, CalcToken", "segmenter.go: segmentWords", "dag.go: calc"]}
{"id": "C111", "title": "Removing a word that a segmentation does not use", "statement": "Let all distances be positive. If Segment (or ModeSegment) of a text does not use a stored word of more than one unit (a unit is a character or a run of ASCII letters and digits), then after RemoveToken of that word it returns the same segments with the same tokens for this text, and also after CalcToken has run again. In particular ties are decided in the same way. For a word of a single unit this fails: the unit becomes unknown with distance 32, which may be less than its distance was.", "quantifier": "every reachable dictionary with positive distances, every stored word, every text, both modes", "why_tests_cant": "relates two runs over all texts and dictionaries, including those with several equally short paths in float32", "anchors": ["segmenter.go: segmentWords, updateJumper", "dict_util.go: RemoveToken, CalcToken"]}
{"id": "C112", "title": "Removing a word that a cut does not use", "statement": "Let the weights of all ways to cut the text be numbers. If Cut without the HMM does not return a stored word of more than one character whose first character is itself a word of positive frequency, then after RemoveToken of that word Cut without the HMM returns the same words for this text. Ties are decided in the same way. If the word does not occur in the text, Cut with the HMM and CutSearch without it are unchanged too (its beginnings may occur, unlike in C91). Two conditions cannot be dropped. If the first character is no word, removing even a word that does not occur in the text can change the cut, because the character no longer begins a word and counts as unknown with frequency 1 instead of as found with frequency 0. With the HMM, removing a word can make Cut return exactly this word, which it did not return before.", "quantifier": "every reachable dictionary, every stored word, every text and configuration", "why_tests_cant": "relates two runs over all texts and dictionaries, including those with several equally likely routes in float64", "anchors": ["dag.go: Find, getDag, calc, cutDAGNoHMM, cutDAG, hmm, cutForSearch", "dict_util.go: RemoveToken"]}
