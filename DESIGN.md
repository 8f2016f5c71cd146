# Formal model of go-ego/gse in Coq: design

## Shape

* `rocq/theories/` (logical name `Verif`): Coq 8.16.1 standard library; Flocq for the IEEE instance of the
  arithmetic (`Ieee.v`) only.
* `M_*.v` model, no proofs; every definition cites file:lines of /repo and states its simplifications.
  `M_PosTab.v` is generated from the tables of hmm/pos.
* `S_*.v` small specifications used in theorem statements; they do not use the model's loops.
* `P_*.v` proofs.
* `T_*.v` property theorems with `Print Assumptions`, and beside each an `Example` on a concrete, non-trivial
  case (or, for theorems named `_refuted`, the witness itself).
* `Demo.v` a concrete environment (`ieee`, ASCII plus a few Unicode facts) used by examples and witnesses.
* `tools/props.py` writes properties.jsonl, `tools/manifest.py` writes MANIFEST.json from the theorem names.
* `seeded/LOG.jsonl` one line per wrong program the theorems were tried against. `build_failed_at` is what was observed:
  the lemmas at which the build of the wrong program stopped. `theorems_failed` is derived from it: the theorems that
  depend on such a lemma (by name, or for automatic edits by file) and so were not built. It is an upper bound; that each
  of these statements is false of the wrong program was not shown. For automatic edits it is computed with the present
  files and can name theorems younger than the attempt.

A property whose literal wording is false of the program is stated as what does hold, plus a `_refuted` theorem with a
witness for the literal wording.

## Modelling conventions

* A Go `string`/`[]byte`/`Text` is a `list byte` (256 values, so there is no well-formedness side condition).
  A `rune` is a `Z`.
* Panics are values: `res A = Ok a | Panic | Hang`. `Hang` is only produced when the fuel of a loop is exhausted;
  theorems either exclude it or (non-termination) prove it for every fuel. Every slice access, map write and pointer
  dereference that can panic in the program is checked in the model.
* `int` is unbounded (`nat`/`Z`); overflow of 64-bit lengths and memory exhaustion are not modelled.
* nil and empty slices are not distinguished; nil maps and nil pointers are where the program can observe them.
* Log output is not modelled; returned errors are a boolean.

## Trusted base

1. The Coq 8.16.1 kernel, and Flocq as compiled in this installation.
2. What `Print Assumptions` lists (next section).
3. The reading of the Go code as Coq definitions, with the conventions above and the library models below.

### Library models

* **Floats.** The model is parametric in a record `arith` of float32/float64 operations with the three laws 0 == 0 (both
  widths) and not 0 < 0. Theorems on losslessness and safety hold for every `arith`, so also for NaN, infinities and any
  rounding. Theorems on optimality, frequencies, tags and ranks are stated for `ieee`: Flocq binary32/binary64, round to
  nearest even. No fused multiply-add: Go may fuse x*y + z on some platforms (not on amd64). C86, C87 and
  parts of C90 are stated for arithmetic without rounding (`exact`, `exact32`, S_Exact.v): they are about the algorithm, floats only approximate it
  (C109 and C105 are C86 and C87 with rounding).
* **Oracles** (record `env`; theorems hold for all of them): the Unicode tables outside ASCII (inside ASCII, and for
  U+FFFD, they are spelled out), `math.Log`, `math.Log2`, `strconv.ParseFloat`; what cedar's Delete does with a path that is
  a proper prefix of keys (`q_drop`); whether fmt.Fscanln reports the end of input inside a line as EOF (`q_eof`).
* **cedar** (external dependency, not in /repo) is an ideal finite map from byte strings to integers with prefix queries;
  node ids are paths. Trusted: `Get/Jump/Value/Insert/Delete` implement that map for keys without NUL bytes.
* **Token pointers** into `Dict.Tokens` are indices, except in `M_Heap`, where they are addresses of array elements and the
  growth of append is an arbitrary function. C88 proves that the two give the same output and says what `Segment` values kept
  by the user across mutations give. Words as parts of the caller's []byte: `M_Alias` (C89); elsewhere slices are values.
* **Files.** A file system is a function from names to contents, read errors included; `path.Join`/`GetCurrentFilePath` are
  abstracted to the names of the built-in files. bufio.Scanner gives lines up to 65535 bytes; fmt.Fscanln is modelled by
  hand for the three string operands used.
* **Regular expressions** of the code are hand-written matchers (reEng, regHan, regSkip, reHanDetail, reSkipDetail,
  reHanInternal, reSkipInternal, reNum, `\d+|\D+`, the one of FilterHtml); expressions supplied by the user are arbitrary functions returning a
  match interval.
* **encoding/json, net/url** (M_Server): strings are escaped as json.Marshal does (\b and \f as in either version of Go), parameters are given decoded.
* **Sorting.** `sort.Sort` is any function returning a sorted permutation; with ties the theorems hold for every such result.
* **Map iteration** orders are arbitrary permutations, chosen per loop and per call.
* **hmm tables.** All tables of packages hmm and hmm/pos are in the model. The emission tables (35,224 and 89,290 constants) are
  generated from the source by `tools/emit_tab.py`; C98 is about them. Elsewhere the emission table is a parameter, since
  LoadModel can replace it (for hmm/pos the theorems ask for values in [-3.14e100, 0], which C98 proves of the source).
* **Concurrency** (C55, C92, C95): Segment, Find, AddToken, RemoveToken and CalcToken as sequentially consistent interleavings of reads and
  writes of the dictionary; each call into cedar and each read of a token is one step (Delete: two); the two backward scans of
  segmentWords are fused. In Go these races have no defined result; the model gives them the mildest one.

### Not modelled

* Directories bm25, crf, gonn, tf (stubs), tools/benchmark except the worker pool of goroutines.go:16-29, 62-82, data/main.go, examples, testdata, and all tests. Of tools/server: flags, HTTP
  transport, headers and static files.
* `textToString`, `printTokens`, `toWords`, `bytesToString`, `GetVersion`, `GetCurrentFilePath`, log output, `Segmenter.Init` beyond
  the defaults it sets, and `AddToken`, `RemoveToken` of `pos.Dict` (wrappers of those of the segmenter).
* Byte order marks, concurrent use other than C55, C92, C95 and C97, and API misuse that needs unexported fields.

## Assumptions per theorem

207 of the theorems print "Closed under the global context". The following 107, which speak about `ieee` or real numbers or compute in them, print
exactly the four axioms of the standard library's real numbers, which Flocq's correctness proofs need (`C108_exact_scores`, which does not
use Flocq, prints only the first and the third):
`ClassicalDedekindReals.sig_forall_dec`, `ClassicalDedekindReals.sig_not_dec`,
`FunctionalExtensionality.functional_extensionality_dep`, `Classical_Prop.classic`.

* C02: `segment_shortest`
* C03: `zero_distance_refuted`
* C07: `alphanum_toggle_refuted`
* C100: `most_probable_refuted`, `unknown_character`, `unknown_character_cut`
* C101: `builtin_probabilities`, `first_state_refuted`, `last_state_refuted`, `missing_emissions_avoided`, `single`
* C102: `nearly_shortest`, `shortest_refuted`
* C103: `nearly_most_probable`
* C104: `nearly_most_probable`, `nearly_most_probable_hmm`
* C105: `nearly_most_probable`
* C106: `builtin`, `nearly_most_probable`
* C107: `nearly_exact_ranking`
* C108: `exact_scores`, `nearly_exact_ranking`
* C109: `rounded_log_is_accurate`, `suggested_word_is_kept`
* C110: `changed_frequency`, `raised_word_lost_refuted`
* C111: `single_character_refuted`, `unused_word`, `unused_word_recomputed`
* C112: `absent_word_hmm`, `absent_word_search`, `first_character_refuted`, `hmm_refuted`, `unused_word_cut`
* C14: `flag_is_membership_refuted`
* C17: `find_own_spelling_refuted`
* C21: `loads_keep_words_refuted`
* C26: `best_route_hmm`, `best_route_nohmm`, `weights_comparable`
* C27: `most_probable_refuted`
* C30: `suggest_many`, `suggest_one`
* C32: `state_path_optimal`, `state_path_optimal_finite`
* C34: `termination_refuted`
* C36: `pos_viterbi_never_stuck`
* C37: `builtin_tables`, `pos_cut_order_independent`, `pos_viterbi_order_independent`
* C39: `pos_cut_hmm_preserves_text`, `tagger_text`, `tagger_words`
* C40: `stored_pos_refuted`
* C41: `comparable`, `most_probable_refuted`, `pos_cut_hmm`, `pos_cut_plain`
* C49: `spans_in_text_order_refuted`
* C51: `extract_tags`, `negative_count_panics`, `order_independent`
* C52: `default_is_median`, `unknown_words_weigh_nothing_after_load_refuted`
* C54: `default_tags`, `map_order_matters_refuted`, `positive_weights_refuted`, `result_order_irrelevant`, `text_rank`
* C55: `reader_around_add_token_refuted`
* C62: `every_text_loaded_refuted`
* C64: `pos_viterbi_optimal`
* C66: `load_stop_embed_drops_first_text_refuted`
* C69: `one_field_line_refuted`
* C71: `constructors_agree_refuted`
* C72: `same_as_string_refuted`
* C75: `search_prefix_refuted`
* C76: `cut_prefix_refuted`
* C77: `insertion_order`, `total_matters_refuted`
* C78: `after_calc_refuted`
* C79: `recut_refuted`, `runs_cut_again`
* C82: `pos_cut`, `text_rank`
* C83: `copies_are_independent_refuted`
* C84: `option_alpha_refuted`, `package_pos_refuted`
* C86: `ascii_letters_refuted`, `suggested_parts_refuted`, `suggested_word_is_kept`
* C87: `float32_refuted`, `most_probable`
* C88: `kept_search_refuted`
* C89: `reuse_refuted`
* C90: `float32_refuted`, `rest`, `sentences`
* C91: `only_occurring_words_refuted`
* C92: `segment_during_calc_refuted`
* C93: `any_words_refuted`
* C95: `calc_during_remove_refuted`
* C98: `hmm_most_probable`, `tagger_most_probable`
* C99: `builtin_probabilities`, `missing_emissions_avoided`, `only_single`

## Per property

Theorem names are prefixed with the property's id.

| id | model (M_ files) | proof | theorems |
|----|------------------|-------|----------|
| C01 | Split, Dict, Seg (SplitTextToWords, LookupTokens, segmentWords with explicit panics) | dictionary invariant over all histories; induction over the forward loop and the backward scan | `segment_tiles`, `outputs_total` |
| C02 | as C01, `ieee` float32 | loop invariant: minDistance is the minimum over all tilings of the prefix; monotonicity of rounded addition (Flocq) | `segment_shortest` |
| C03 | as C01 | witness by computation | `zero_distance_refuted` |
| C04 | as C01 | from the invariant of C01 with the excluded full-length jump | `search_splits` |
| C05 | Out (ToSlice, Slice), Dag (Cut) | from C01 and C10 | `slice_preserves_text` |
| C06 | as C01 | invariant on the tokens of the jumpers | `segments_are_words` |
| C07 | Seg, options changed between load and use | witnesses by computation | `alphanum_toggle_refuted` |
| C08 | Seg (CalcToken), Out | well-founded measure: byte length of the key; exact sub-segments after CalcToken | `subsegments_well_founded`, `subsegments_after_calc`, `subsegments_cover` |
| C09 | Out (ToString, ToSlice, ToPos, String, Slice, Pos) | induction on the fuel of the tree walk; relational listing in S_Out | `search_listing`, `listing_unique`, `slice_is_pos_texts`, `string_renders_pos`, `search_extends_normal` |
| C10 | Split | loop invariant on UTF-8 units | `split_lossless` |
| C11 | Split | loop invariant: output is the list of maximal runs | `split_groups` |
| C12 | Split | from C10/C11 | `split_stable` |
| C13 | Dict (cedar as finite map), Seg (CalcToken) | refinement to an association map, induction over histories | `dictionary_is_a_map`, `histories_run` |
| C14 | Dict (Find, Value) | case analysis on prefix/key; witness | `find_flag`, `flag_is_membership_refuted` |
| C15 | Dict, Seg | induction over histories | `counters`, `step` |
| C16 | Dict (LookupTokens) | induction over the words looked up | `lookup_prefixes` |
| C17 | Dict (ToToken, AddToken) | from C13; witness | `add_stores_normal_form`, `stored_words_are_normal`, `find_own_spelling_refuted` |
| C18 | Dict (RemoveToken, ReAddToken) | from C13 | `remove_only_its_word`, `readd_missing_word`, `readd_stored_word` |
| C19 | Load (LoadDictStr), Str | induction over lines against the line relation of S_Load | `load_str_adds_the_lines`, `line_entry_unique`, `first_load_sets_defaults` |
| C20 | Load (LoadDictStr, LoadDictMap) | from C13 and C19 | `first_entry_wins`, `later_loads_change_nothing` |
| C21 | Load (LoadDict, Empty) | case analysis on Load/Dict; witness | `load_dict_discards`, `load_dict_after_empty_fails`, `load_dict_after_empty_panics`, `loads_keep_words_refuted` |
| C22 | Load (LoadDictStr, Reader, Fscanln) | line relation; induction over lines of one to three fields | `one_field_line_inherits_pos`, `reader_short_lines` |
| C23 | Dag (cutDAGNoHMM) | loop invariant on the route | `cut_dag_nohmm_preserves_text` |
| C24 | Dag (cutDAG), Hmm | loop invariant with the buffer; C33 for the flush | `cut_dag_preserves_text` |
| C25 | Dag (getDag) | induction over end positions | `dag_lists_dictionary_words` |
| C26 | Dag (calc), `ieee` | dynamic programming over monotone rounded addition | `best_route_nohmm`, `best_route_hmm`, `edge_weight`, `weights_comparable` |
| C27 | Dag (getDag, calc) | witness by computation | `most_probable_refuted` |
| C28 | Dag (cutAll) | loop invariant; existence of edges from C25 | `cut_all` |
| C29 | Dag (cutForSearch) | induction over windows | `cut_search` |
| C30 | Dag (SuggestFreq), `ieee` | case analysis on float comparisons; exact values | `suggest_one`, `suggest_many`, `suggested_value_one`, `suggested_value_many` |
| C31 | Hmm (Viterbi), tables spelled out | induction over observations | `state_path_legal`, `tables_of_the_source` |
| C32 | Hmm, `ieee` | dynamic programming; exact comparison of scores | `state_path_optimal`, `state_path_optimal_finite` |
| C33 | Hmm (internalCut, Cut, regHan, regSkip matchers) | loop invariant; fuel bound | `hmm_cut_preserves_text`, `hmm_cut_follows_path` |
| C34 | Hmm (Cut) with arbitrary match functions | the loop keeps its state: Hang for every fuel | `empty_skip_match_hangs`, `empty_han_match_panics`, `termination_refuted` |
| C35 | Hmm (LoadModel, HMMCut, HMMCutMod) | histories over a global table | `model_is_global`, `cut_mod_sets_model`, `no_model` |
| C36 | Pos, PosTab (generated tables) | table check by computation lifted by forallb_forall | `pos_viterbi_never_stuck` |
| C37 | Pos | maximum of a total preorder with ties broken is order independent | `pos_viterbi_order_independent`, `pos_cut_order_independent`, `builtin_tables` |
| C38 | Pos (RegexpSplit) | loop invariant on match intervals | `regexp_split_lossless`, `regexp_split_positions` |
| C39 | Pos (Cut, cutDAG, cutDAGNoHMM, cutDetail) | loop invariants; tagger output by C36 | `pos_cut_preserves_text`, `pos_cut_hmm_preserves_text`, `tagger_words`, `tagger_text`, `tagger_pieces_unique` |
| C40 | Pos (Dict.Pos) | case analysis; witness | `dict_pos`, `at_most_one_word_lost`, `stored_pos_refuted` |
| C41 | Pos (calc with logTotal 0) | C26 with weights not divided by the total; witness | `pos_cut_plain`, `pos_cut_hmm`, `comparable`, `most_probable_refuted` |
| C42 | Trim (stop.go) | refinement to a set, induction over histories | `stop_words_are_a_set`, `add_stop_panics_without_map` |
| C43 | Trim | loop = filter/map | `filters`, `filters_are_idempotent`, `trim_pos_keeps_stop_word_refuted` |
| C44 | Trim (TrimWithPos, PosTrim) | induction over tags; witness | `trim_with_pos`, `no_tags_removes_everything_refuted`, `pos_trim` |
| C45 | Trim (FilterHtml matcher) | leftmost matches against a tag relation | `filter_html`, `no_tag_left` |
| C46 | Trim (SplitNum, SplitNums) | maximal runs | `split_num`, `split_nums` |
| C47 | Trim (CutStr, PosStr) | index loop = join; inverse for separators not in the words | `cut_str_joins`, `pos_str_joins`, `cut_str_can_be_undone`, `long_separators_refuted` |
| C48 | Analyze (FindAllOccs) | greedy occurrences from the right; Hang for every fuel on the empty word | `find_all_occs`, `empty_word_never_ends_refuted` |
| C49 | Analyze | loop invariant on the span table; witnesses | `analyze_without_text`, `analyze_with_text`, `empty_word_never_ends_refuted`, `spans_in_text_order_refuted` |
| C50 | Out (Token.Equals, Text, Join) | induction | `join_is_concat`, `equals` |
| C51 | Idf (ExtractTags), `ieee` | counting as multiset; sort contract; witness | `extract_tags`, `order_independent`, `negative_count_panics`, `beginnings_of_entries_weigh_nothing_refuted` |
| C52 | Idf (AddToken, LoadDict, Freq), `ieee` | sort contract; witnesses | `idf_dictionaries_are_reachable`, `default_is_median`, `add_to_new_idf_panics`, `unknown_words_weigh_nothing_after_load_refuted` |
| C53 | Idf (StopWord as heap of instances) | histories over a shared map; witnesses | `stop_words_are_shared`, `instances_are_independent_refuted`, `load_dict_misses_its_instance_refuted` |
| C54 | Rank (TextRank), `ieee` | error bounds for ten rounds; sort contract; witnesses | `text_rank`, `default_tags`, `result_order_irrelevant`, `map_order_matters_refuted`, `positive_weights_refuted` |
| C55 | Conc (small-step programs, interleavings) | simulation; reads commute with reads; witness schedules | `readers_do_not_interfere`, `alone`, `reader_during_add_token_refuted`, `reader_around_add_token_refuted`, `two_writers_refuted` |
| C56 | Load (DictPaths) | induction over the names | `plain_lists`, `only_requested_paths`, `all_requested_in_order`, `bare_tag_adds_nothing_refuted` |
| C57 | Utf8 | arithmetic on byte ranges, by cases | `round_trip`, `range` |
| C58 | Trim (FilterSymbol, FilterEmoji, FilterLang) | loop = filter on runes | `rune_filters`, `rune_filters_are_idempotent`, `filter_lang_is_no_script_filter_refuted` |
| C59 | Load (Reader, LoadDict) | both loaders against the line relation | `reader_is_load_str`, `load_dict_is_load_str` |
| C60 | Load (Reader) | measure on the unread input; Hang for every fuel on read errors | `reader_returns`, `reader_loops_on_read_errors`, `reader_sep_loops_on_read_errors` |
| C61 | Load (Reader, Fscanln) | induction | `fourth_field_is_a_line` |
| C62 | Load (LoadDictEmbed) | list relation; witness | `embed_loads_all_texts`, `embed_replaces_first_text`, `every_text_loaded_refuted`, `embed_lists`, `embed_names` |
| C63 | Load (LoadDictStr) | case analysis | `blank_line_adds_empty_word` |
| C64 | Pos (viterbi), `ieee` | dynamic programming over candidate paths | `pos_viterbi_optimal` |
| C65 | Pos (RegexpSplit) | loop invariant on the number of pieces; witness | `regexp_split_limit`, `limit_exceeded_refuted` |
| C66 | Trim (LoadStop, LoadStopEmbed, bufio.Scanner) | induction over files and lines; witnesses | `load_stop`, `load_stop_embed`, `load_stop_embed_drops_first_text_refuted`, `long_line_ends_file_refuted` |
| C67 | Trim (TrimPosPunct) | loop invariant; witness | `trim_pos_punct`, `trim_pos_punct_overwrites_argument_refuted` |
| C68 | Trim (CutTrim, CutStop, CutTrimHtml, CutUrl) | C24/C43/C45/C46 | `cut_trim_keeps_text`, `cut_stop_drops_stop_words_only`, `cut_trim_html_keeps_text`, `cut_url_keeps_text` |
| C69 | Load (Reader with DictSep) | line relation; witness | `reader_with_separator`, `line_entry_unique`, `reader_is_load_str`, `one_field_line_refuted` |
| C70 | Load (LoadDict, Read) | induction over the files | `load_dict_reads_all`, `load_dict_stops_at_missing` |
| C71 | New (New, NewEmbed) | C59, C60, C70; witness | `new`, `new_returns`, `new_embed`, `constructors_agree`, `constructors_agree_refuted` |
| C72 | New (tokenToBytes), Out | induction on the fuel of the tree walk; witness | `token_to_bytes`, `same_as_string_refuted` |
| C73 | New (newTag), Pos, PosTab | computation over the list of tags | `new_tag`, `states_are_tags` |
| C74 | Api (histories over all loading and editing calls) | invariant over calls: options fixed, dictionary missing or reachable | `dictionaries_are_reachable`, `segment_after_any_history`, `histories_in_order_return`, `missing_dictionary_panics` |
| C75 | Split, Dict, Seg, Out | the jumpers of a prefix are a prefix of the jumpers; the backward scan from a segment end is a part of the scan | `segment_prefix`, `cut_prefix`, `case_is_forgotten`, `search_prefix_refuted` |
| C76 | Dag (cutDAGNoHMM) | the route from a position depends on the text behind it only | `cut_suffix`, `cut_prefix_refuted` |
| C77 | Dict, Seg, Out, Dag | simulation between two dictionaries with equal words; exact float sums below 2^53; witness | `same_words_same_results`, `histories`, `insertion_order`, `total_matters_refuted` |
| C78 | Dict (LookupTokens), Seg, Out | simulation restricted to the words that occur; witness | `words_of_the_text_decide`, `adding_other_words`, `after_calc_refuted` |
| C79 | Split, Dict, Seg, Out, `ieee` | whole-number shortest paths: optimal sub-structure with the tie rule of updateJumper; witness | `runs_cut_again`, `one_unit`, `recut_refuted` |
| C80 | Tags (TagExtracter), Idf, Load, Dag | the state splits into segmenter, idf and the one stop word map; each is a function of its own calls | `setup_returns`, `extract_tags_panics`, `setup_order` |
| C81 | Env, Split, Trim, Str | C11, C43, C58 for bytes below 128; case analysis over the bytes | `ascii_split`, `ascii_lower`, `ascii_filters`, `stray_bytes` |
| C82 | Ranker (pos.Segmenter, TextRanker), Pos, Rank, Load | invariant over the calls; the blocks of a text without looked-up characters | `setup_returns`, `pos_cut`, `text_rank` |
| C83 | Share (copies of a Segmenter), Api, Load | invariant over the heap: one dictionary per making call, each pointed to by the Segmenters of that call | `each_sees_its_calls`, `histories_in_order_return`, `early_copies_are_independent`, `late_copies_stay_equal`, `copies_are_independent_refuted` |
| C84 | Split, Seg, Dag, Dict, Pos | lower-casing the bytes commutes with decoding; the split is the same | `segmenting_ignores_case`, `dag_cuts_ignore_case`, `dictionary_ignores_case`, `option_alpha_refuted`, `package_pos_refuted` |
| C85 | Seg, Out, Dag, Dict | relation between the entries of the same word, carried through CalcToken and all cutters | `tags_do_not_matter`, `calls_with_other_tags` |
| C86 | Dag, Dict | exact arithmetic with minus infinity as a record of laws (S_Exact; an instance over the reals in T_Exact); the product of the relative frequencies before and after the change, comparison of all ways to cut; counterexamples in IEEE arithmetic | `suggested_word_is_kept`, `ascii_letters_refuted`, `suggested_parts_refuted` |
| C87 | Seg, Dict, Out | exact float32 and base 2 logarithm as a second record of laws; distances are minus the logarithms of relative frequencies, the shortest path of C02 (from the laws alone) has the largest product; counterexample in IEEE arithmetic | `most_probable`, `float32_refuted` |
| C88 | Heap, Seg, Dict, Out | arrays of tokens as heap objects, growth of slices an arbitrary oracle; simulation with the index model, invariant that old arrays keep text and pos and only gain sub-segments; counterexample with and without spare capacity | `pointers_and_indices`, `kept_results`, `kept_search_refuted` |
| C89 | Alias, Split, Seg | words as ranges of the caller's array or copies; SplitTextToWords transcribed for them and simulated, fallback tokens matched with their words along the tiling; counterexample | `segments_share`, `words_share`, `reuse_refuted` |
| C90 | Seg, Out, Split | equations of the shortest-path recursion restarted at a segment boundary (exact arithmetic), first minimal candidate unchanged by a common summand; words before the separator decided by the prefix alone; counterexample | `before_separator`, `rest`, `sentences`, `float32_refuted` |
| C91 | Dag, Dict, Hmm | rows of the DAG determined by the positive words (strictly sorted lists with equal members); Find equal on the substrings, so calc and the loops (whose buffer is always a part of the text) agree; grams of a word are parts of the text; counterexample | `cut_all`, `cut_all_add`, `cut_all_remove`, `cutters`, `cutters_remove`, `only_occurring_words_refuted` |
| C92 | Conc | program logic: invariant (texts, frequencies and tags stay, words only disappear) kept by every write, postcondition per call; DP invariant on the jumpers; induction on programs for termination; relation per write for the words; witness schedules | `safe`, `returns`, `words`, `unaffected`, `find_unaffected`, `find_during_remove_refuted`, `segment_during_calc_refuted` |
| C93 | Out, Seg, Split | words of a text have no slash behind the first byte (UTF-8 continuation bytes, letters); every printed pair is fine (tree walk); reader inverts the printer; counterexample | `read_back`, `injective`, `any_words_refuted` |
| C94 | Utf8, Env, Trim | relation by the RFC table against decoder and encoder (width by width, linear arithmetic); class tests evaluated on the 128 ASCII characters | `decode`, `encode`, `classes`, `lower`, `filters` |
| C95 | Conc, Seg, Dict | rely/guarantee logic for step programs: what a running CalcToken has settled is stable under the steps of the others | `distances`, `complete`, `later_calls`, `calc_during_remove_refuted` |
| C96 | Server, Out, Dag, Seg | independent JSON reader run on the characters of the answer (induction over units, then list and object lemmas); alignment of words with characters | `segments`, `words`, `add`, `any_requests` |
| C97 | Pool, Conc, Seg | invariant of the pool (multiset of lines in log, workers, channel and still to be sent; count of workers that have left), a measure that every step makes smaller, and the fact that readers do not interfere (C55) | `no_deadlock`, `terminates`, `complete`, `done_has_room` |
| C98 | Emit, HmmEmit, PosEmit, Hmm, Pos | the tables are checked by computation (distinct characters, nearest float64, range, emission for every listed state) and the checks are turned into statements about the literals; then C31, C32, C37, C64 apply | `hmm_emissions`, `pos_emissions`, `states_have_emissions`, `exception`, `hmm_most_probable`, `tagger_most_probable`, `distribution_refuted`, `states_of_emissions_refuted` |
| C99 | Emit, Hmm | every float64 sum along a path is either at least -2^62 or at most -3.14e100 (both kept by every addition, by absorption in rounding to nearest), and C32 | `builtin_probabilities`, `missing_emissions_avoided`, `only_single` |
| C100 | Emit, Hmm | invariant of the Viterbi columns after the unknown character: all values at most -3.14e100 and none above that of S; additions of table values change nothing; exact sums of the constants for the refutation | `unknown_character`, `unknown_character_cut`, `most_probable_refuted` |
| C101 | Emit, Pos | each sum is at least -2^62 or at most -3.14e100, by induction on candidate paths; optimality (C64) | `builtin_probabilities`, `missing_emissions_avoided`, `single`, `first_state_refuted`, `last_state_refuted` |
| C102 | Seg, Ieee | relative error of a float32 sum of positive numbers (P_Sum, from Flocq's plus error), Bernoulli; optimality (C02) | `nearly_shortest`, `shortest_refuted` |
| C103 | Hmm, Emit, Ieee | relative error of float64 sums and of the rounded constants (P_Sum, C98); missing emissions are avoided (C99), optimality (C32) | `nearly_most_probable` |
| C104 | Dag, Ieee | relative error of float64 sums (P_Sum), an accurate logarithm as hypothesis, shown satisfiable by the correctly rounded one (demo_ln); optimality (C26) | `nearly_most_probable`, `nearly_most_probable_hmm` |
| C105 | Seg, Out, Ieee | absolute error of to32 and sub32 below 128, exact lengths against logarithms of products (as in C87), C102; the hypothesis on Log2 is shown satisfiable (demo_lg) | `nearly_most_probable` |
| C106 | Pos, PosTab, Emit, Ieee | relative error of float64 sums along a candidate path (P_Sum), clean paths (C101), optimality (C64) | `nearly_most_probable`, `builtin` |
| C107 | Idf, Ieee | relative error of Bdiv and Bmult (Flocq) on the two roundings of a weight, ranking by the rounded weights (C51) | `nearly_exact_ranking` |
| C108 | Rank, Ieee | relative error of the recurrence along its order of computation (P_Near7), ranking by the rounded weights (C54) | `exact_scores`, `nearly_exact_ranking` |
| C109 | Dag, Dict, Ieee | relative error of the product of SuggestFreq (P_Near8), near-optimality of both cuts (C104) against the margin of C86 (P_Near9) | `suggested_word_is_kept`, `rounded_log_is_accurate` |
| C110 | Seg, Dict | ReAddToken multiplies the probability of a reading by (t/(t+a'))^k (a'/a)^m, k dictionary words, m times w (P_Raise); C87 before and after; float64 witness | `changed_frequency`, `raised_word_lost_refuted` |
| C111 | Seg, Dict, Ieee | of the nearest candidates for an end the one that starts first is kept (P_Unused: fold_first); with fewer candidates no end gets nearer, so the old chain is kept | `unused_word`, `unused_word_recomputed`, `single_character_refuted` |
| C112 | Dag, Dict, Hmm, Ieee | the rows of the graph are the old ones without the word (P_Unused2: row_less); no route gets heavier, and of equally heavy ends the last is kept, so the old route is kept (follows_kept) | `unused_word_cut`, `absent_word_hmm`, `absent_word_search`, `first_character_refuted`, `hmm_refuted` |
