# Formal model of scrappybara in Coq: design

## 1. Approach

The part of the library that is logic (about 3 000 lines of Python) is re-written, function by
function, as total, computable Gallina definitions. Each definition carries a comment citing the file
and lines of `/repo` it models, and any simplification.

* Python exceptions are values: `res A := Ok a | Err e`. Loops are structural recursion, folds, or
  recursion on explicit fuel that returns `Err OutOfFuel`; theorems exclude that value.
* Strings are lists of code points (`list N`). Character classification (`isspace`, `\d`, `\w`, case
  variants, `lower`) is a record `udb` of functions; theorems hold for every `udb` that agrees with
  ASCII on the ASCII range (`udb_ok`). The concrete `ascii_udb` is used for witnesses only.
* Python's `re` is modelled by a backtracking matcher (`Regex.v`): greedy and lazy repetition,
  groups, lookahead, lookbehind, word boundaries, anchors, `search`, `fullmatch`, `sub`, `split`,
  `finditer`. All the patterns of the library are transcribed as terms of its syntax.
* Dictionaries are insertion-ordered association lists. Sets whose iteration order matters are
  lists quantified over all permutations.
* Threads are a small-step system with an arbitrary scheduler (`MUtils.v`). `multiprocessing.Pool.map`
  is modelled as a map.
* Neural models are oracles: arbitrary functions from one sentence's input to codes. Random shuffling
  is an arbitrary permutation.
* Floating point: the cut positions of `numpy.linspace` are computed in IEEE binary64 with Flocq.
  Probabilities are exact rationals (rounding of the probabilities is not modelled).
* Mutable `Node` objects live in an explicit store indexed by node number.

All files are in `rocq/theories`, told apart by a prefix:

| Prefix | Content |
|---|---|
| `PyBase.v`, `Regex.v`, `M*.v` | the model |
| `S*.v` | specifications: words the statements use, independent of the helpers of the model |
| `L*.v` | lemmas and proofs |
| `P*.v` | the properties: theorems `Cnn_...`, a non-trivial case `Cnn_witness`, `Print Assumptions` |
| `Conf*.v` | conformance tests: the model computed on literals taken from the tests of `/repo` (tests, not proofs; no claim rests on them) |

Where the faithful model violates a property, a theorem with the suffix `_refuted` gives a concrete
witness and the part that does hold is proved with suffix `_partial`.

`tools/mkprops.py` writes `properties.jsonl` and `tools/mkmanifest.py` writes `MANIFEST.json` from
`tools/claims.py`. `tools/mkconf_*.py` wrote the conformance tests from the tests of `/repo`.

## 2. Plan per property

| Property | What is modelled | How it is proved |
|---|---|---|
| C01 | tokenizer with all its regexes, protection loop with fuel | every protected match contains a character the placeholder lacks; the count of such characters decreases |
| C02 | `str.split` at the end of the tokenizer | split never yields empty or spaced words |
| C03 | whole tokenizer | static analysis of each regex ("needs a character outside the class"), lifted through the matcher; "cannot" by hand |
| C04 | whole tokenizer | generic lemma: substitution preserves a projection of the text if each template does on each match; denotational soundness of the matcher gives the shape of matches. The conditions (stars, numbers with a measure) are shown to be needed, and without them the possible changes are bounded |
| C05 | whole tokenizer | refuted by computation; partial: a decoding of placeholders commutes with every later rule |
| C06 | `sanitize` for any rules | split/join lemmas |
| C07 | `__split_sentences` for any tokenizer | induction on tokens |
| C08 | `__find_blocks` with its running shift | invariant relating shifted positions to original ones |
| C09 | whole sentencizer | refuted by computation; partial: placeholders of blocks survive the tokenizer, one by one and whole |
| C10 | sentencizer over a tokenizer that splits words | the result is specified block by block by a relation that determines it |
| C11 | `__split_tokens`, `itertools.groupby` | induction |
| C12, C18 | `Pipeline.__call__`, `Parser.__call__`, `_logic_process` with oracles | composition of the per-stage theorems |
| C13, C14 | threads as a small-step system, any scheduler | invariant over all interleavings; exceptions end a thread and leave its output empty |
| C15, C16 | `np.linspace` in binary64 | monotonicity of rounding, relative error bounds (Flocq) |
| C17, C65-C70 | direct | induction |
| C19, C20 | `Tree` as two dictionaries | refinement to the list of registrations |
| C21-C24 | `_Parse` as a state machine with arbitrary transitions | invariants by induction on transitions; C24 refuted |
| C25, C26 | `LabelledSentence.transitions` and replay | arc-eager oracle completeness on projective trees; C26 refuted |
| C27 | `_arcs_are_crossing` with sorted pairs | case analysis |
| C28-C31 | vectorization, padding, slices | list lemmas; C28, C29 and C31 refuted / partial |
| C32 | recursive climbs with fuel | acyclicity gives termination |
| C33, C34, C72 | `Nodifier` | invariants on the dictionaries; C34 refuted |
| C35, C36 | `Fixer`, `Chunker` | commutation of updates; well-founded recursion on token index |
| C37-C39, C71 | `Lemmatizer` over an arbitrary language model | case analysis on the decision list |
| C40 | `Standardizer` with its regex | case analysis |
| C41 | `Inflector` | refuted by computation ("agree"); partial rule theorem |
| C42, C75 | `Canonicalizer`, order of normalization in `_logic_process` | case analysis |
| C43-C48 | `LanguageModel` over parsed files | dictionary lemmas, stable sort |
| C49-C51 | extraction, store, builder batches | induction |
| C52-C57 | smoothers over exact rationals | sums over lists, closure of ngram sets; C53, C57 refuted |
| C58 | file format, `%.17f`, `split('\t')` | codec round trip; refuted by a tiny probability |
| C59-C64, C73, C74 | node store, `ArgFinder`, extractor | the passes are shown to compute the relation of `SArgs.v` and the tuples of `SSem.v`; invariants |
| C76 | `LabelledSentence` with named labels, samples, extraction | the loop of samples is a map; columns are the transpose of the lines |
| C78, C80 | text files as contents; `load_set_from_txt_file`, `load_dict_from_txt_file`, `Wordset.save` | lines, trimmed text and words are relations that determine them |
| C79 | lemmatizer and inflector on loaded tables; the five irregular tables of the package | case analysis; the shipped entries by computation, for every language model |
| C77 | the same with `Parser.__call__` | the replay of C25 drives the parser: at each step the question asked is a line of the data |
| C81 | `LogicPipeline.test_sample` on named labels | the relations of C63 and C73 depend only on the set of arcs when no token has two subjects, objects, markers or properties; then C77 |
| C82 | `Pipeline._test_parse`, `Pipeline._test_process` | the sentences and parses stay aligned (C22) when none is too long; the second extraction gives the same tuples because it only reads nodes; then C12 |
| C83 | `predict` of the three models with numpy's argmax, `Parser.__call__` and `Tagger.tag` with batches of predictions | the batched loop is refined by the loop of `MParser.v`, which steps parses one by one; then C21 |
| C84 | `LabelledSentence.register_warning`, `warnings_json` and `json.dumps` on strings, integers, lists and dictionaries | induction on the fuel of a reader of JSON texts; then C70 |
| C85 | the model of C54-C57 | C56, then sums of the values of the ngrams that share their first words; the discounts subtracted add up to the mass left over |
| C86 | the whole of `Pipeline.__call__`, with batches of predictions and any execution of the threads | refuted by a text of C09; C14, C83 and the stages of C12 give the documents that are returned |
| C87 | the whole of `Pipeline.__call__`, with batches of predictions and any execution of the threads | composition of C01, C09, C12, C13, C18, C21 and C83 |
| C88 | MSentencizer.v with MTokenizer.v; SKeep.v: `written`, `unmarked`; STok.v: `adjusted`, `ordinary` | LKeep.v: a text with marks expands to the text it stands for; the adjustments of C04 never touch a mark, so they carry over to the expansions; quotations and brackets are expanded in two layers |
| C89 | MSentencizer.v with MTokenizer.v | computed counterexample; LKeep.v `sentences_unmarked`: no stage adds the mark when the rule does not fire |
| C90 | `MViews.v`: the views as functions of the loaded sentence; Python indexing as in `PyBase.index`. | Loading a sentence with a ROOT gives all its tokens and the tree of its labelled arcs (`LTrain`, `LOracle`), the children of a tree are the registered ones (`LTree`); the text by induction on the tokens. |
| C91 | the whole tokenizer of MTokenizer.v on texts described word by word in SEnglish.v | each rule is shown to act word by word on the joined text (LRun.v: scanning a joined list of words), rule after rule (LEnglish.v to LEnglish10.v), with keys in place of the addresses; only the addresses are protected, each one whole, by an invariant of the loop, and the keys are put back (LWeb.v: greedy matches and replacing inside words; LEnglish11.v); other Unicode databases agree with the ASCII one on ASCII texts (LAscii.v) |
| C92 | the sentencizer of MSentencizer.v with the tokenizer of MTokenizer.v | C91 for each line, then the cut of the tokens (uniqueness of the sentences of C07); the specification english_sentences in SEnglish.v is stated on the words, not on the tokens |
| C93 | `MNgram.v` (Ngram), specification `words_of` in `STok.v` and `one_space`, `any_word` in `PNgram.v` | slices of a list of words by length arithmetic; joins with one space by `join_snoc`, `join_cons` |
| C94 | the lemmatizer's rule cascade as in C38/C71, the prefix reading and the language model lookups | `hidden` and `unheard` in `SNormal.v`. Each rule is read from the end of the word (`LNormal4`), the specification likewise (`LNormal5`), then the cascade of each tag is decided by cases on the last letters (`LNormal6`, `LNormal7`). `C94_hidden_witness` shows tricking, tricked, tricks and sieves unchanged in a model that knows trick and sieve |
| C95 | the standardizer with its regular expressions run by the backtracking matcher, and the language model | `family`, `preferred`, `spelled` in `SSpell.v`. Every cut of a token is matched by the pattern and is unique (`split_token_matches`, `cut_unique`), so each rule is the family it stands for (`LSpell`); the specification has one result (`spelled_fun`) |
| C96 | the inflector, the lemmatizer and the language model, composed | `lost` in `SRound.v`. The five forms of the participle (`pp_made`, `LRound`) are regular inflections (`made_inflected`) and hidden exactly when the verb is lost (`made_lost`); C94 |
| C97 | the layers of the three networks, on a batch, with arbitrary weights and numbers | `sized` in `SNet.v`, `rowwise` in `SBatch.v`. Each layer is followed on a batch (`char_model_ok`, `boolean_mask_ok`, `keras_predict_ok`, `library_rowwise` in `LNet`); then C83 |
| C98 | the whole tokenizer of MTokenizer.v, with its loop that protects parts of the text | from C91 for the texts where no address is a part of another one; a computed counterexample for the others |
| C99 | the whole tokenizer of MTokenizer.v | each rule of the tokenizer in turn: those that need another symbol change nothing, the rules for ampersands and cannot find nothing, and each rule that joins is run over the text from left to right, by induction on the list of pieces |

## 3. Trusted base

* Coq 8.16.1's kernel, `vm_compute` included. No `native_compute`, no plugin, no kernel check off.
* The axioms below, of the standard library only.
* The reading of Python semantics recorded in the comments of the model.

`Print Assumptions` is run beside each theorem. For the theorems of this list it prints exactly

    ClassicalDedekindReals.sig_forall_dec
    ClassicalDedekindReals.sig_not_dec
    Classical_Prop.classic
    FunctionalExtensionality.functional_extensionality_dep

because they go through the binary64 marks of `numpy.linspace`, which Flocq specifies with the reals:
C12_documents, C13_run_multithreads_is_map, C13_run_multithreads_returns, C14_refuted, C14_partial,
C15_divide_list_partition, C16_divide_list_balanced, C21_parser_returns, C28_refuted, C28_partial,
C52_mle_probabilities, C53_mle_total_refuted, C53_mle_total_partial, C54_mkn_defined,
C55_mkn_unigrams, C56_mkn_values, C57_mkn_probabilities_refuted, C57_mkn_probabilities_partial,
C58_saved_model_loads_refuted, C58_saved_model_loads_partial, C77_learned, C81_sample, C81_order, C81_learned, C81_two_subjects, C82_first_sentence, C82_tokens, C82_long_sentence, C83_batches, C83_mixed_batches, C85_context_sum, C85_context_at_most_one, C86_refuted, C86_partial, C87_every_text, C34_pipeline_refuted, C60_pipeline_refuted, C97_parser, C97_every_text.

Every other theorem of `MANIFEST.json` is "Closed under the global context".

## 4. What is modelled

| Code | Model |
|---|---|
| `utils/mutables.py`, `multithreading.py`, `maths.py`, `text.py`, `timer.py` | `MUtils.v` |
| `utils/tree.py`, `syntax/tags.py`, `dependencies.py`, `transitions.py` | `MTree.v` |
| `preprocessing/sanitization.py`, `tokenizer.py` | `MTokenizer.v` |
| `preprocessing/sentencizer.py` | `MSentencizer.v` |
| `langmodel/ngram.py`, `ngram_store.py`, `ngrams_extraction.py`, `token_context.py` | `MNgram.v` |
| `langmodel/smoother.py`, `mle_smoother.py`, `mkn_smoother.py` | `MSmooth.v` |
| `langmodel/language_model_builder.py` | `MBuilder.v` |
| `langmodel/language_model.py` | `MLangModel.v` |
| `normalization/*.py` (the canonicalizer in `MNode.v`) | `MNormal.v` |
| `syntax/training_samples.py`, `charset.py`, `wordset.py`, `tagger.py` | `MVector.v` |
| `syntax/parser.py` | `MParser.v`, `MBatch.v` |
| `syntax/models.py` (`predict` in `MBatch.v`, the layers in `MNet.v`) | `MBatch.v`, `MNet.v` |
| `syntax/labelled_data.py` | `MLabelled.v`, `MTrain.v`, `MWarn.v`, `MViews.v` |
| `syntax/node.py`, `nodifier.py`, `fixer.py`, `chunker.py`, `arg_finder.py` | `MNode.v` |
| `semantics/*.py` | `MSem.v` |
| `pipeline/*.py` | `MPipeline.v`, `MFull.v`, `MSem.v`, `MSample.v`, `MDebug.v` |
| `utils/files.py` (sets and dictionaries), `Wordset.save` | `MFiles.v` |
| `data/english/irregular_*.txt` | `MData.v` (written by `tools/mkdata.py`) |

Not modelled: the numbers of the networks of `syntax/models.py` (the content of the weights, rounding, training),
`config.py`, file-system errors, pickling, memory limits, the recursion limit of CPython, printing and
logging. `MNet.v` models the layers of the networks with any numbers. It trusts that each layer does to the
shape of a batch what the documentation of Keras says, and that it gives an element of a batch the same numbers
whatever the rest of the batch (no rounding that depends on the batch). That the answer of a network on a sentence
does not depend on the other sentences is then C97; it is built in `MParser.v` and a hypothesis of C83, C86 and C87,
which C97 meets.
