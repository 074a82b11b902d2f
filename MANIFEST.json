{
 "claims": [
  {
   "property": "C01",
   "status": "proved",
   "theorems": [
    "C01_terminates"
   ],
   "note": "for every text and every Unicode database that meets udb_ok; the fuel of the protection loop, the length of the text, is shown to be enough"
  },
  {
   "property": "C02",
   "status": "proved",
   "theorems": [
    "C02_tokens",
    "C02_empty"
   ],
   "note": ""
  },
  {
   "property": "C03",
   "status": "proved",
   "theorems": [
    "C03_words",
    "C03_spec"
   ],
   "note": "the words and the tokens of words are relations, shown to be total and functional"
  },
  {
   "property": "C04",
   "status": "proved",
   "theorems": [
    "C04_content",
    "C04_adjusted",
    "C04_conditions"
   ],
   "note": "exact content of the tokens; C04_adjusted drops the conditions on numbers and stars and bounds what may then change; C04_conditions shows the conditions on numbers and stars are needed"
  },
  {
   "property": "C05",
   "status": "partial",
   "theorems": [
    "C05_refuted",
    "C05_partial"
   ],
   "note": "false: a placeholder leaks when a URL follows the abbreviation of and, for instance; C05_partial: no underscore in the tokens of a text without underscore, slash, www and the letters of a placeholder"
  },
  {
   "property": "C06",
   "status": "proved",
   "theorems": [
    "C06_normal_form",
    "C06_no_rule"
   ],
   "note": "For every list of rules, patterns and templates being arbitrary."
  },
  {
   "property": "C07",
   "status": "proved",
   "theorems": [
    "C07_split_sentences",
    "C07_text",
    "C07_sentences_unique",
    "C07_blocks_unique"
   ],
   "note": "C07_text: for every tokenizer whose tokens do not start with one of the four reserved characters. Blocks and sentences are specified by relations that determine them."
  },
  {
   "property": "C08",
   "status": "proved",
   "theorems": [
    "C08_quotes",
    "C08_brackets",
    "C08_parts_unique"
   ],
   "note": "For every block, which contains no end of line. The parts are specified by a relation that determines them."
  },
  {
   "property": "C09",
   "status": "partial",
   "theorems": [
    "C09_refuted",
    "C09_partial"
   ],
   "note": "C09_partial: no exception on a text without reserved characters, underscore, slash, www and the letters of a placeholder; false of texts with a reserved character, and of texts where the abbreviation of and stands between a quotation and a URL"
  },
  {
   "property": "C10",
   "status": "proved",
   "theorems": [
    "C10_restored",
    "C10_unique"
   ],
   "note": "The full result of sentencizing is specified, block by block, by a relation that determines it: quoted parts, then bracketed parts over characters and quoted parts, then words, then sentences cut only at words."
  },
  {
   "property": "C11",
   "status": "proved",
   "theorems": [
    "C11_resplit",
    "C11_resplit_unique"
   ],
   "note": "Maximal runs are specified by an inductive relation that determines them."
  },
  {
   "property": "C12",
   "status": "proved",
   "theorems": [
    "C12_documents",
    "C12_document_tuples"
   ],
   "note": "For every thread execution of each parallel map, nb_cores >= 1, batch size >= 1, at most 2^53 texts and sentences. The neural models are arbitrary functions of one sentence: that a prediction does not depend on the rest of the batch is part of this model, and is proved for the networks of the library in C97."
  },
  {
   "property": "C13",
   "status": "proved",
   "theorems": [
    "C13_run_multithreads_is_map",
    "C13_run_multithreads_returns"
   ],
   "note": "Small-step threads; every schedule, any number of items up to 2^53."
  },
  {
   "property": "C14",
   "status": "partial",
   "theorems": [
    "C14_refuted",
    "C14_partial"
   ],
   "note": "The property is false of the code: C14_refuted gives a run that returns a shorter list. C14_partial says exactly what is returned."
  },
  {
   "property": "C15",
   "status": "proved",
   "theorems": [
    "C15_divide_list_partition"
   ],
   "note": "With the binary64 cuts of np.linspace; lists of at most 2^53 items, beyond which integers are not exact in binary64."
  },
  {
   "property": "C16",
   "status": "proved",
   "theorems": [
    "C16_divide_list_balanced"
   ],
   "note": "For len(items) * n <= 2^50, so that rounding cannot move a cut by a whole item."
  },
  {
   "property": "C17",
   "status": "proved",
   "theorems": [
    "C17_make_batches"
   ],
   "note": ""
  },
  {
   "property": "C18",
   "status": "proved",
   "theorems": [
    "C18_logic_never_raises"
   ],
   "note": "For every sentence of at most 50 tokens the parser returns a parse, and the logic succeeds on it, for arbitrary models, word lists and language model files without a blank n-gram."
  },
  {
   "property": "C19",
   "status": "proved",
   "theorems": [
    "C19_tree_is_its_history"
   ],
   "note": ""
  },
  {
   "property": "C20",
   "status": "partial",
   "theorems": [
    "C20_refuted",
    "C20_partial"
   ],
   "note": "False of the code for a child registered twice; C20_partial gives the case of one registration per child."
  },
  {
   "property": "C21",
   "status": "proved",
   "theorems": [
    "C21_parsing_terminates",
    "C21_parser_returns"
   ],
   "note": "The neural models are arbitrary functions giving 52 codes in range."
  },
  {
   "property": "C22",
   "status": "proved",
   "theorems": [
    "C22_parses_wellformed"
   ],
   "note": ""
  },
  {
   "property": "C23",
   "status": "proved",
   "theorems": [
    "C23_root"
   ],
   "note": ""
  },
  {
   "property": "C24",
   "status": "partial",
   "theorems": [
    "C24_refuted",
    "C24_partial"
   ],
   "note": "False of the code: a token may get two heads, one on each side."
  },
  {
   "property": "C25",
   "status": "proved",
   "theorems": [
    "C25_transitions_rebuild"
   ],
   "note": "For projective labelled trees, as in the property."
  },
  {
   "property": "C26",
   "status": "partial",
   "theorems": [
    "C26_refuted",
    "C26_partial"
   ],
   "note": "False of the code: an arc over the root is lost. C26_partial: true when no arc spans the root."
  },
  {
   "property": "C27",
   "status": "proved",
   "theorems": [
    "C27_crossing_test",
    "C27_sentence"
   ],
   "note": ""
  },
  {
   "property": "C28",
   "status": "partial",
   "theorems": [
    "C28_refuted",
    "C28_partial"
   ],
   "note": "False of the code: the error is swallowed in a worker thread."
  },
  {
   "property": "C29",
   "status": "partial",
   "theorems": [
    "C29_refuted",
    "C29_partial"
   ],
   "note": "False of the code: min (n + 2) 51 tags are returned."
  },
  {
   "property": "C30",
   "status": "proved",
   "theorems": [
    "C30_vectorization",
    "C30_charset",
    "C30_alphabet",
    "C30_masks"
   ],
   "note": ""
  },
  {
   "property": "C31",
   "status": "partial",
   "theorems": [
    "C31_refuted",
    "C31_partial"
   ],
   "note": "False for some iteration orders of the character set in Charset.save; true whenever the code of the closing delimiter is not 0 or it is not in the words."
  },
  {
   "property": "C32",
   "status": "proved",
   "theorems": [
    "C32_ancestors_descendants"
   ],
   "note": ""
  },
  {
   "property": "C33",
   "status": "proved",
   "theorems": [
    "C33_nodes",
    "C33_parser_trees"
   ],
   "note": ""
  },
  {
   "property": "C34",
   "status": "partial",
   "theorems": [
    "C34_refuted",
    "C34_pipeline_refuted",
    "C34_partial"
   ],
   "note": "False of the code: of two tokens attached by FLAT to the same head only the last is kept. Proved for chains of FLAT arcs."
  },
  {
   "property": "C35",
   "status": "proved",
   "theorems": [
    "C35_fixer",
    "C35_any_order"
   ],
   "note": ""
  },
  {
   "property": "C36",
   "status": "proved",
   "theorems": [
    "C36_chunks"
   ],
   "note": ""
  },
  {
   "property": "C37",
   "status": "proved",
   "theorems": [
    "C37_suffix_fits"
   ],
   "note": ""
  },
  {
   "property": "C38",
   "status": "proved",
   "theorems": [
    "C38_lemma_origin",
    "C38_without_attestation",
    "C38_tables_first"
   ],
   "note": ""
  },
  {
   "property": "C39",
   "status": "proved",
   "theorems": [
    "C39_prefix_order",
    "C39_lemmatize_order"
   ],
   "note": ""
  },
  {
   "property": "C40",
   "status": "proved",
   "theorems": [
    "C40_standardize"
   ],
   "note": ""
  },
  {
   "property": "C41",
   "status": "partial",
   "theorems": [
    "C41_past_participle_refuted",
    "C41_past_participle_partial"
   ],
   "note": "False of the code: a final e after a vowel gets ed (agree -> agreeed). The rules are proved for every other lemma."
  },
  {
   "property": "C42",
   "status": "proved",
   "theorems": [
    "C42_canonical",
    "C42_active",
    "C42_no_raise"
   ],
   "note": ""
  },
  {
   "property": "C43",
   "status": "proved",
   "theorems": [
    "C43_contains",
    "C43_has_ngram"
   ],
   "note": ""
  },
  {
   "property": "C44",
   "status": "proved",
   "theorems": [
    "C44_best_ngram",
    "C44_logp"
   ],
   "note": "math.log is a parameter of the model."
  },
  {
   "property": "C45",
   "status": "proved",
   "theorems": [
    "C45_best_token"
   ],
   "note": "The candidates of an order are those candidates(n) returns, of which C46 says what they are."
  },
  {
   "property": "C46",
   "status": "partial",
   "theorems": [
    "C46_candidates_refuted",
    "C46_candidates_partial",
    "C46_sides"
   ],
   "note": "False of the code: a negative slice bound drops windows. C46_candidates_partial gives the contexts on which it is true."
  },
  {
   "property": "C47",
   "status": "proved",
   "theorems": [
    "C47_next_word"
   ],
   "note": ""
  },
  {
   "property": "C48",
   "status": "proved",
   "theorems": [
    "C48_top_ngrams"
   ],
   "note": ""
  },
  {
   "property": "C49",
   "status": "proved",
   "theorems": [
    "C49_extract_ngrams",
    "C49_windows",
    "C49_words"
   ],
   "note": ""
  },
  {
   "property": "C50",
   "status": "proved",
   "theorems": [
    "C50_ngram_store"
   ],
   "note": ""
  },
  {
   "property": "C51",
   "status": "proved",
   "theorems": [
    "C51_builder_counts",
    "C51_independent"
   ],
   "note": "The sentencizer is an arbitrary function."
  },
  {
   "property": "C52",
   "status": "proved",
   "theorems": [
    "C52_mle_probabilities"
   ],
   "note": ""
  },
  {
   "property": "C53",
   "status": "partial",
   "theorems": [
    "C53_mle_total_refuted",
    "C53_mle_total_partial"
   ],
   "note": "False of the code: no probability is set for the orders above the longest sentence and the lookup fails. C53_mle_total_partial: exactly when it holds."
  },
  {
   "property": "C54",
   "status": "proved",
   "theorems": [
    "C54_mkn_defined"
   ],
   "note": "Depends on the axioms of the real numbers of the standard library, through the Flocq binary64 model of numpy.linspace."
  },
  {
   "property": "C55",
   "status": "proved",
   "theorems": [
    "C55_mkn_unigrams"
   ],
   "note": ""
  },
  {
   "property": "C56",
   "status": "proved",
   "theorems": [
    "C56_mkn_values"
   ],
   "note": ""
  },
  {
   "property": "C57",
   "status": "partial",
   "theorems": [
    "C57_mkn_probabilities_refuted",
    "C57_mkn_probabilities_partial"
   ],
   "note": "False of the code: discounts may be negative or above the count. C57_mkn_probabilities_partial: true when the counts of counts give discounts in range."
  },
  {
   "property": "C58",
   "status": "partial",
   "theorems": [
    "C58_saved_model_loads_refuted",
    "C58_saved_model_loads_partial"
   ],
   "note": "False of the code: a positive probability of at most 0.5e-17 is written as 0 and loading raises. C58_saved_model_loads_partial: true when there is none. Binary64 rounding of the parsed decimal is not modelled."
  },
  {
   "property": "C59",
   "status": "proved",
   "theorems": [
    "C59_grammar"
   ],
   "note": "The past participle function is any total one: see C41."
  },
  {
   "property": "C60",
   "status": "partial",
   "theorems": [
    "C60_negation_refuted",
    "C60_pipeline_refuted",
    "C60_negation_partial"
   ],
   "note": "False of the code: in \"no dogs want to bark\" the subject counts twice and the negation is lost. C60_negation_partial: the parity counts each node as often as the tuple lists it, and the subjects of a passive form as one."
  },
  {
   "property": "C61",
   "status": "proved",
   "theorems": [
    "C61_provenance"
   ],
   "note": ""
  },
  {
   "property": "C62",
   "status": "proved",
   "theorems": [
    "C62_argument",
    "C62_text",
    "C62_arg"
   ],
   "note": ""
  },
  {
   "property": "C63",
   "status": "proved",
   "theorems": [
    "C63_subjects_objects"
   ],
   "note": ""
  },
  {
   "property": "C64",
   "status": "proved",
   "theorems": [
    "C64_negation"
   ],
   "note": ""
  },
  {
   "property": "C65",
   "status": "proved",
   "theorems": [
    "C65_xnor_parity"
   ],
   "note": ""
  },
  {
   "property": "C66",
   "status": "proved",
   "theorems": [
    "C66_token_start",
    "C66_token_prefix"
   ],
   "note": ""
  },
  {
   "property": "C67",
   "status": "proved",
   "theorems": [
    "C67_round_trips"
   ],
   "note": ""
  },
  {
   "property": "C68",
   "status": "partial",
   "theorems": [
    "C68_refuted",
    "C68_partial"
   ],
   "note": "False of the code: upper case letters are accepted."
  },
  {
   "property": "C69",
   "status": "proved",
   "theorems": [
    "C69_timer"
   ],
   "note": "Times are exact rationals: the rounding of float subtraction and sum is not modelled."
  },
  {
   "property": "C70",
   "status": "proved",
   "theorems": [
    "C70_grouping",
    "C70_reverse_dict",
    "C70_reverse_twice",
    "C70_sets",
    "C70_nested"
   ],
   "note": ""
  },
  {
   "property": "C71",
   "status": "proved",
   "theorems": [
    "C71_regular_inflections"
   ],
   "note": ""
  },
  {
   "property": "C72",
   "status": "proved",
   "theorems": [
    "C72_words"
   ],
   "note": ""
  },
  {
   "property": "C73",
   "status": "proved",
   "theorems": [
    "C73_other_arguments"
   ],
   "note": ""
  },
  {
   "property": "C74",
   "status": "proved",
   "theorems": [
    "C74_exact_tuples"
   ],
   "note": ""
  },
  {
   "property": "C75",
   "status": "proved",
   "theorems": [
    "C75_normalized"
   ],
   "note": ""
  },
  {
   "property": "C76",
   "status": "proved",
   "theorems": [
    "C76_names",
    "C76_unknown_name",
    "C76_tags",
    "C76_deps",
    "C76_trans",
    "C76_refused",
    "C76_own_parent"
   ],
   "note": ""
  },
  {
   "property": "C77",
   "status": "proved",
   "theorems": [
    "C77_learned"
   ],
   "note": ""
  },
  {
   "property": "C78",
   "status": "proved",
   "theorems": [
    "C78_lines",
    "C78_set",
    "C78_dict",
    "C78_dict_error",
    "C78_english"
   ],
   "note": ""
  },
  {
   "property": "C79",
   "status": "proved",
   "theorems": [
    "C79_participle",
    "C79_shipped"
   ],
   "note": "the shipped tables are part of the model (MData.v)"
  },
  {
   "property": "C80",
   "status": "proved",
   "theorems": [
    "C80_vectors",
    "C80_refused"
   ],
   "note": "the reading of a number is a parameter"
  },
  {
   "property": "C81",
   "status": "proved",
   "theorems": [
    "C81_sample",
    "C81_order",
    "C81_learned",
    "C81_two_subjects"
   ],
   "note": "C81_two_subjects shows that the condition on the dependents is needed"
  },
  {
   "property": "C82",
   "status": "proved",
   "theorems": [
    "C82_first_sentence",
    "C82_tokens",
    "C82_long_sentence"
   ],
   "note": "C82_long_sentence shows that the condition on the length is needed: the returned parse can be that of another sentence"
  },
  {
   "property": "C83",
   "status": "proved",
   "theorems": [
    "C83_most_probable",
    "C83_not_a_number",
    "C83_batches",
    "C83_mixed_batches"
   ],
   "note": "that the networks answer each sentence of a batch on its own is a hypothesis, met by the networks of the library (C97); C83_mixed_batches shows that it is needed"
  },
  {
   "property": "C84",
   "status": "proved",
   "theorems": [
    "C84_warnings",
    "C84_read_back"
   ],
   "note": "SJson.v is the reader of JSON texts the statement refers to"
  },
  {
   "property": "C85",
   "status": "proved",
   "theorems": [
    "C85_context_sum",
    "C85_context_at_most_one"
   ],
   "note": "the values of longer contexts need not sum to at most 1: see C57"
  },
  {
   "property": "C86",
   "status": "partial",
   "theorems": [
    "C86_refuted",
    "C86_partial"
   ],
   "note": "false of the code: the whole share of a thread is lost with the text that raises, and the call returns fewer documents without an error. C86_partial says exactly which documents are returned. Missing: the readable texts of a share with an unreadable text."
  },
  {
   "property": "C87",
   "status": "proved",
   "theorems": [
    "C87_every_text"
   ],
   "note": "the networks answer each sentence of a batch on its own, as those of the library do (C97); the texts are ordinary and without reserved characters (C09)"
  },
  {
   "property": "C88",
   "status": "proved",
   "theorems": [
    "C88_spelled",
    "C88_exact"
   ],
   "note": "The texts are ordinary in the sense of C04, without the four characters that the sentencizer reserves for its marks; with these characters C09 is false. The paragraph marks are left out on both sides, see C89."
  },
  {
   "property": "C89",
   "status": "partial",
   "theorems": [
    "C89_refuted",
    "C89_partial"
   ],
   "note": "False of the code. The sentencizer writes a paragraph mark after each full stop that is followed by a quotation mark, and removes it only from the tokens outside of quotations and brackets. Inside brackets it stays: They left (he said \"no.\" twice) early. has a token that is a paragraph mark. Proved for texts in which no full stop is followed by a quotation mark."
  },
  {
   "property": "C90",
   "status": "proved",
   "theorems": [
    "C90_views",
    "C90_rootless",
    "C90_text"
   ],
   "note": "Iteration, length, integer items (from both ends, IndexError outside), text, valid indexes and leaves of a LabelledSentence, for every list of token tuples; slices are not modelled. Without a ROOT the sentence is empty."
  },
  {
   "property": "C91",
   "status": "proved",
   "theorems": [
    "C91_english_tokens"
   ],
   "note": "Exact list of tokens. The texts left out are shown in the example C91_left_out."
  },
  {
   "property": "C92",
   "status": "proved",
   "theorems": [
    "C92_english_sentences"
   ],
   "note": "Exact sentences, with empty lines."
  },
  {
   "property": "C93",
   "status": "proved",
   "theorems": [
    "C93_ngram",
    "C93_wildcard"
   ],
   "note": "Everything an n-gram shows of its text, for every text and every order, including the refusals (AssertionError). words_of is the specification of white-space words used for the tokenizer claims."
  },
  {
   "property": "C94",
   "status": "proved",
   "theorems": [
    "C94_undone"
   ],
   "note": "Exact: the listed readings are the only ones in which a counted, unrivalled lemma is not returned. Rivals are excluded by hypothesis, because between two attested lemmas the more probable one wins (C38)."
  },
  {
   "property": "C95",
   "status": "proved",
   "theorems": [
    "C95_spelling"
   ],
   "note": "Exact, ties included. For tokens with characters outside ASCII C40 holds."
  },
  {
   "property": "C96",
   "status": "proved",
   "theorems": [
    "C96_round_trip"
   ],
   "note": "The hypotheses on the participle and its rivals are those of C94. Lost verbs: ski, untie, click, programme."
  },
  {
   "property": "C97",
   "status": "proved",
   "theorems": [
    "C97_networks",
    "C97_words",
    "C97_parser",
    "C97_every_text",
    "C97_two_trues"
   ],
   "note": "What a Keras layer does to a batch is modelled; the numbers are any, so that nothing depends on rounding. Assumed: softmax keeps the number of classes, and a layer gives an element the same numbers in every batch. C97_two_trues shows why each mask must be true once."
  },
  {
   "property": "C98",
   "status": "partial",
   "theorems": [
    "C98_addresses_refuted",
    "C98_addresses_partial"
   ],
   "note": "False of the code when one address of the text is a part of another one (http://a.com and http://a.com?b=c): the shorter one is protected first, also inside the longer one, and the rest of the longer one is cut up. Proved for all other English texts."
  },
  {
   "property": "C99",
   "status": "proved",
   "theorems": [
    "C99_names"
   ],
   "note": "For texts of words of ASCII letters, ampersands, single capital letters and names, where nothing or a word comes after a name."
  }
 ]
}
