CLAIMS = {
 'C06': ('proved', ['C06_normal_form', 'C06_no_rule'], 'For every list of rules, patterns and templates being arbitrary.'),
 'C07': ('proved', ['C07_split_sentences', 'C07_text', 'C07_sentences_unique', 'C07_blocks_unique'],
         'C07_text: for every tokenizer whose tokens do not start with one of the four reserved characters. Blocks and sentences are specified by relations that determine them.'),
 'C08': ('proved', ['C08_quotes', 'C08_brackets', 'C08_parts_unique'], 'For every block, which contains no end of line. The parts are specified by a relation that determines them.'),
 'C10': ('proved', ['C10_restored', 'C10_unique'],
         'The full result of sentencizing is specified, block by block, by a relation that determines it: quoted parts, then bracketed parts over characters and quoted parts, then words, then sentences cut only at words.'),
 'C11': ('proved', ['C11_resplit', 'C11_resplit_unique'], 'Maximal runs are specified by an inductive relation that determines them.'),
 'C12': ('proved', ['C12_documents', 'C12_document_tuples'],
         'For every thread execution of each parallel map, nb_cores >= 1, batch size >= 1, at most 2^53 texts and sentences. The neural models are arbitrary functions of one sentence: that a prediction does not depend on the rest of the batch is part of this model, and is proved for the networks of the library in C97.'),
 'C18': ('proved', ['C18_logic_never_raises'],
         'For every sentence of at most 50 tokens the parser returns a parse, and the logic succeeds on it, for arbitrary models, word lists and language model files without a blank n-gram.'),
 'C13': ('proved', ['C13_run_multithreads_is_map', 'C13_run_multithreads_returns'],
         'Small-step threads; every schedule, any number of items up to 2^53.'),
 'C14': ('partial', ['C14_refuted', 'C14_partial'],
         'The property is false of the code: C14_refuted gives a run that returns a shorter list. C14_partial says exactly what is returned.'),
 'C15': ('proved', ['C15_divide_list_partition'], 'With the binary64 cuts of np.linspace; lists of at most 2^53 items, beyond which integers are not exact in binary64.'),
 'C16': ('proved', ['C16_divide_list_balanced'], 'For len(items) * n <= 2^50, so that rounding cannot move a cut by a whole item.'),
 'C17': ('proved', ['C17_make_batches'], ''),
 'C19': ('proved', ['C19_tree_is_its_history'], ''),
 'C20': ('partial', ['C20_refuted', 'C20_partial'], 'False of the code for a child registered twice; C20_partial gives the case of one registration per child.'),
 'C21': ('proved', ['C21_parsing_terminates', 'C21_parser_returns'], 'The neural models are arbitrary functions giving 52 codes in range.'),
 'C22': ('proved', ['C22_parses_wellformed'], ''),
 'C23': ('proved', ['C23_root'], ''),
 'C24': ('partial', ['C24_refuted', 'C24_partial'], 'False of the code: a token may get two heads, one on each side.'),
 'C25': ('proved', ['C25_transitions_rebuild'], 'For projective labelled trees, as in the property.'),
 'C26': ('partial', ['C26_refuted', 'C26_partial'], 'False of the code: an arc over the root is lost. C26_partial: true when no arc spans the root.'),
 'C27': ('proved', ['C27_crossing_test', 'C27_sentence'], ''),
 'C28': ('partial', ['C28_refuted', 'C28_partial'], 'False of the code: the error is swallowed in a worker thread.'),
 'C29': ('partial', ['C29_refuted', 'C29_partial'], 'False of the code: min (n + 2) 51 tags are returned.'),
 'C30': ('proved', ['C30_vectorization', 'C30_charset', 'C30_alphabet', 'C30_masks'], ''),
 'C31': ('partial', ['C31_refuted', 'C31_partial'], 'False for some iteration orders of the character set in Charset.save; true whenever the code of the closing delimiter is not 0 or it is not in the words.'),
 'C32': ('proved', ['C32_ancestors_descendants'], ''),
 'C43': ('proved', ['C43_contains', 'C43_has_ngram'], ''),
 'C44': ('proved', ['C44_best_ngram', 'C44_logp'], 'math.log is a parameter of the model.'),
 'C45': ('proved', ['C45_best_token'], 'The candidates of an order are those candidates(n) returns, of which C46 says what they are.'),
 'C46': ('partial', ['C46_candidates_refuted', 'C46_candidates_partial', 'C46_sides'], 'False of the code: a negative slice bound drops windows. C46_candidates_partial gives the contexts on which it is true.'),
 'C47': ('proved', ['C47_next_word'], ''),
 'C48': ('proved', ['C48_top_ngrams'], ''),
 'C49': ('proved', ['C49_extract_ngrams', 'C49_windows', 'C49_words'], ''),
 'C50': ('proved', ['C50_ngram_store'], ''),
 'C51': ('proved', ['C51_builder_counts', 'C51_independent'], 'The sentencizer is an arbitrary function.'),
 'C52': ('proved', ['C52_mle_probabilities'], ''),
 'C53': ('partial', ['C53_mle_total_refuted', 'C53_mle_total_partial'], 'False of the code: no probability is set for the orders above the longest sentence and the lookup fails. C53_mle_total_partial: exactly when it holds.'),
 'C54': ('proved', ['C54_mkn_defined'], 'Depends on the axioms of the real numbers of the standard library, through the Flocq binary64 model of numpy.linspace.'),
 'C55': ('proved', ['C55_mkn_unigrams'], ''),
 'C56': ('proved', ['C56_mkn_values'], ''),
 'C57': ('partial', ['C57_mkn_probabilities_refuted', 'C57_mkn_probabilities_partial'], 'False of the code: discounts may be negative or above the count. C57_mkn_probabilities_partial: true when the counts of counts give discounts in range.'),
 'C58': ('partial', ['C58_saved_model_loads_refuted', 'C58_saved_model_loads_partial'], 'False of the code: a positive probability of at most 0.5e-17 is written as 0 and loading raises. C58_saved_model_loads_partial: true when there is none. Binary64 rounding of the parsed decimal is not modelled.'),
 'C65': ('proved', ['C65_xnor_parity'], ''),
 'C66': ('proved', ['C66_token_start', 'C66_token_prefix'], ''),
 'C67': ('proved', ['C67_round_trips'], ''),
 'C68': ('partial', ['C68_refuted', 'C68_partial'], 'False of the code: upper case letters are accepted.'),
 'C69': ('proved', ['C69_timer'], 'Times are exact rationals: the rounding of float subtraction and sum is not modelled.'),
 'C70': ('proved', ['C70_grouping', 'C70_reverse_dict', 'C70_reverse_twice', 'C70_sets', 'C70_nested'], ''),
 'C37': ('proved', ['C37_suffix_fits'], ''),
 'C38': ('proved', ['C38_lemma_origin', 'C38_without_attestation', 'C38_tables_first'], ''),
 'C39': ('proved', ['C39_prefix_order', 'C39_lemmatize_order'], ''),
 'C40': ('proved', ['C40_standardize'], ''),
 'C41': ('partial', ['C41_past_participle_refuted', 'C41_past_participle_partial'], 'False of the code: a final e after a vowel gets ed (agree -> agreeed). The rules are proved for every other lemma.'),
 'C71': ('proved', ['C71_regular_inflections'], ''),
 'C33': ('proved', ['C33_nodes', 'C33_parser_trees'], ''),
 'C34': ('partial', ['C34_refuted', 'C34_pipeline_refuted', 'C34_partial'], 'False of the code: of two tokens attached by FLAT to the same head only the last is kept. Proved for chains of FLAT arcs.'),
 'C72': ('proved', ['C72_words'], ''),
 'C35': ('proved', ['C35_fixer', 'C35_any_order'], ''),
 'C36': ('proved', ['C36_chunks'], ''),
 'C42': ('proved', ['C42_canonical', 'C42_active', 'C42_no_raise'], ''),
 'C59': ('proved', ['C59_grammar'], 'The past participle function is any total one: see C41.'),
 'C60': ('partial', ['C60_negation_refuted', 'C60_pipeline_refuted', 'C60_negation_partial'], 'False of the code: in "no dogs want to bark" the subject counts twice and the negation is lost. C60_negation_partial: the parity counts each node as often as the tuple lists it, and the subjects of a passive form as one.'),
 'C61': ('proved', ['C61_provenance'], ''),
 'C62': ('proved', ['C62_argument', 'C62_text', 'C62_arg'], ''),
 'C63': ('proved', ['C63_subjects_objects'], ''),
 'C64': ('proved', ['C64_negation'], ''),
 'C73': ('proved', ['C73_other_arguments'], ''),
 'C74': ('proved', ['C74_exact_tuples'], ''),
 'C75': ('proved', ['C75_normalized'], ''),
 'C01': ('proved', ['C01_terminates'], 'for every text and every Unicode database that meets udb_ok; the fuel of the protection loop, the length of the text, is shown to be enough'),
 'C02': ('proved', ['C02_tokens', 'C02_empty'], ''),
 'C03': ('proved', ['C03_words', 'C03_spec'], 'the words and the tokens of words are relations, shown to be total and functional'),
 'C04': ('proved', ['C04_content', 'C04_adjusted', 'C04_conditions'], 'exact content of the tokens; C04_adjusted drops the conditions on numbers and stars and bounds what may then change; C04_conditions shows the conditions on numbers and stars are needed'),
 'C05': ('partial', ['C05_refuted', 'C05_partial'], 'false: a placeholder leaks when a URL follows the abbreviation of and, for instance; C05_partial: no underscore in the tokens of a text without underscore, slash, www and the letters of a placeholder'),
 'C09': ('partial', ['C09_refuted', 'C09_partial'], 'C09_partial: no exception on a text without reserved characters, underscore, slash, www and the letters of a placeholder; false of texts with a reserved character, and of texts where the abbreviation of and stands between a quotation and a URL'),
 'C76': ('proved', ['C76_names', 'C76_unknown_name', 'C76_tags', 'C76_deps', 'C76_trans', 'C76_refused', 'C76_own_parent'], ''),
 'C77': ('proved', ['C77_learned'], ''),
 'C78': ('proved', ['C78_lines', 'C78_set', 'C78_dict', 'C78_dict_error', 'C78_english'], ''),
 'C79': ('proved', ['C79_participle', 'C79_shipped'], 'the shipped tables are part of the model (MData.v)'),
 'C81': ('proved', ['C81_sample', 'C81_order', 'C81_learned', 'C81_two_subjects'], 'C81_two_subjects shows that the condition on the dependents is needed'),
 'C82': ('proved', ['C82_first_sentence', 'C82_tokens', 'C82_long_sentence'], 'C82_long_sentence shows that the condition on the length is needed: the returned parse can be that of another sentence'),
 'C83': ('proved', ['C83_most_probable', 'C83_not_a_number', 'C83_batches', 'C83_mixed_batches'], 'that the networks answer each sentence of a batch on its own is a hypothesis, met by the networks of the library (C97); C83_mixed_batches shows that it is needed'),
 'C84': ('proved', ['C84_warnings', 'C84_read_back'], 'SJson.v is the reader of JSON texts the statement refers to'),
 'C85': ('proved', ['C85_context_sum', 'C85_context_at_most_one'], 'the values of longer contexts need not sum to at most 1: see C57'),
 'C86': ('partial', ['C86_refuted', 'C86_partial'], 'false of the code: the whole share of a thread is lost with the text that raises, and the call returns fewer documents without an error. C86_partial says exactly which documents are returned. Missing: the readable texts of a share with an unreadable text.'),
 'C87': ('proved', ['C87_every_text'], 'the networks answer each sentence of a batch on its own, as those of the library do (C97); the texts are ordinary and without reserved characters (C09)'),
 'C88': ('proved', ['C88_spelled', 'C88_exact'], 'The texts are ordinary in the sense of C04, without the four characters that the sentencizer reserves for its marks; with these characters C09 is false. The paragraph marks are left out on both sides, see C89.'),
 'C89': ('partial', ['C89_refuted', 'C89_partial'], 'False of the code. The sentencizer writes a paragraph mark after each full stop that is followed by a quotation mark, and removes it only from the tokens outside of quotations and brackets. Inside brackets it stays: They left (he said "no." twice) early. has a token that is a paragraph mark. Proved for texts in which no full stop is followed by a quotation mark.'),
 'C90': ('proved', ['C90_views', 'C90_rootless', 'C90_text'], 'Iteration, length, integer items (from both ends, IndexError outside), text, valid indexes and leaves of a LabelledSentence, for every list of token tuples; slices are not modelled. Without a ROOT the sentence is empty.'),
 'C91': ('proved', ['C91_english_tokens'], 'Exact list of tokens. The texts left out are shown in the example C91_left_out.'),
 'C92': ('proved', ['C92_english_sentences'], 'Exact sentences, with empty lines.'),
 'C93': ('proved', ['C93_ngram', 'C93_wildcard'], 'Everything an n-gram shows of its text, for every text and every order, including the refusals (AssertionError). words_of is the specification of white-space words used for the tokenizer claims.'),
 'C94': ('proved', ['C94_undone'], 'Exact: the listed readings are the only ones in which a counted, unrivalled lemma is not returned. Rivals are excluded by hypothesis, because between two attested lemmas the more probable one wins (C38).'),
 'C95': ('proved', ['C95_spelling'], 'Exact, ties included. For tokens with characters outside ASCII C40 holds.'),
 'C96': ('proved', ['C96_round_trip'], 'The hypotheses on the participle and its rivals are those of C94. Lost verbs: ski, untie, click, programme.'),
 'C97': ('proved', ['C97_networks', 'C97_words', 'C97_parser', 'C97_every_text', 'C97_two_trues'], 'What a Keras layer does to a batch is modelled; the numbers are any, so that nothing depends on rounding. Assumed: softmax keeps the number of classes, and a layer gives an element the same numbers in every batch. C97_two_trues shows why each mask must be true once.'),
 'C98': ('partial', ['C98_addresses_refuted', 'C98_addresses_partial'], 'False of the code when one address of the text is a part of another one (http://a.com and http://a.com?b=c): the shorter one is protected first, also inside the longer one, and the rest of the longer one is cut up. Proved for all other English texts.'),
 'C99': ('proved', ['C99_names'], 'For texts of words of ASCII letters, ampersands, single capital letters and names, where nothing or a word comes after a name.'),
 'C80': ('proved', ['C80_vectors', 'C80_refused'], 'the reading of a number is a parameter'),
}
