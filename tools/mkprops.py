#!/usr/bin/env python3
"""Writes /verif/properties.jsonl from the table below (one source of truth for the property texts)."""
import json, os
P = []
def p(id, title, statement, quantifier, why, *anchors):
    P.append(dict(id=id, title=title, statement=statement, quantifier=quantifier, why_tests_cant=why, anchors=list(anchors)))

# ---------------------------------------------------------------- preprocessing
p('C01', 'Tokenizing always terminates normally',
  'Calling a Tokenizer on any string returns a list: the loop that shields URLs, smileys and "\'n\'" from splitting always stops, and no exception is raised.',
  'every string, of any length and any Unicode content',
  'the protection loop rewrites the text and searches it again until no match is left; only an argument over all strings shows it cannot cycle',
  'scrappybara/preprocessing/tokenizer.py:Tokenizer.__call__', 'scrappybara/preprocessing/tokenizer.py:Tokenizer.__protect_text', 'scrappybara/preprocessing/sanitization.py:sanitize')
p('C02', 'Tokens are non-empty and contain no whitespace',
  'For every non-empty string, every token returned by a Tokenizer is non-empty and contains no whitespace character. For the empty string the result is exactly one empty token.',
  'every string', 'whitespace can be re-introduced by any of some 45 rewriting rules and by the restoration of protected text; samples only cover a few combinations',
  'scrappybara/preprocessing/tokenizer.py:Tokenizer.__call__')
p('C03', 'Plain words are tokenized by whitespace, "cannot" being the only word that is cut',
  'For a text made only of ASCII letters, ASCII digits and whitespace, the tokens are exactly the whitespace-separated words, in order, except that the word "cannot" (in any letter case) becomes its two halves "can" and "not".',
  'every text over letters, digits and whitespace', 'the claim is that none of the rewriting rules fires on any such text, which is an infinite set',
  'scrappybara/preprocessing/tokenizer.py:Tokenizer.__re_segment_off', 'scrappybara/preprocessing/tokenizer.py:Tokenizer.__call__')
p('C04', 'Tokenizing keeps the text: no character is lost, invented or reordered',
  'For a non-empty text without underscore, slash or "www.", without a number directly followed by a quotation mark or prime, without two stars in a row and without the letters NSD, NSGE or NSLE in a row (all up to whitespace), the concatenated tokens are exactly the text without its whitespace, curly quotation marks and primes being made straight and each run of en and em dashes being one hyphen. Without the conditions on numbers and stars, the only further changes are quotation marks after a number spelled "ft" or "in" and runs of stars cut to one star.',
  'every such text', 'each rewriting rule must preserve content on every match it can make, and they are applied in sequence to each other\'s output',
  'scrappybara/preprocessing/tokenizer.py:Tokenizer.__call__')
p('C05', 'Internal placeholders never leak into the tokens',
  'If a text contains no "_PROTECTED_" substring, no token returned for it contains one.',
  'every text', 'the leak needs two protected regions to overlap; it depends on the order of the five protection patterns',
  'scrappybara/preprocessing/tokenizer.py:Tokenizer.__protect_text')
p('C06', 'Sanitized text is in whitespace normal form',
  'sanitize returns a text without leading or trailing whitespace and without two adjacent whitespace characters, the only whitespace character in it being the space, whatever replacement rules are passed; sanitizing with no rule is idempotent and keeps the list of words.',
  'every text and every list of replacement rules', 'quantifies over all texts and all rule lists', 'scrappybara/preprocessing/sanitization.py:sanitize')
p('C07', 'Sentence splitting keeps every token and only cuts after a sentence ender',
  'When a text contains no quotation mark or bracket, the sentences a Sentencizer returns are, block by block, the tokens of the block in order with only the paragraph mark removed; a sentence-ending token (a run of . ? ! : characters) occurs only as the last token of its sentence and every sentence but the last of its block ends that way or was cut by a paragraph mark.',
  'every list of tokens produced by whatever tokenizer is plugged in', 'quantifies over all token sequences and all tokenizers',
  'scrappybara/preprocessing/sentencizer.py:Sentencizer.__split_sentences', 'scrappybara/preprocessing/sentencizer.py:Sentencizer.__call__')
p('C08', 'Quoted and bracketed blocks are cut out at the right place',
  'Replacing the quoted (or bracketed) parts of a block by numbered marks yields exactly the text between the parts interleaved with the marks, numbered in order of appearance after the ones already recorded, and records exactly the inside of each part, in order.',
  'every text, any number and size of quoted parts, any number of parts already recorded',
  'the code edits the text in place while tracking a running offset that depends on the number of digits of each mark; errors would show only for particular counts and lengths',
  'scrappybara/preprocessing/sentencizer.py:Sentencizer.__find_blocks')
p('C09', 'Sentencizing never raises',
  'Calling the default Sentencizer on any string returns a list of lists of tokens without raising.',
  'every string', 'the failing inputs need reserved characters or the interaction of quotes, protected text and URLs',
  'scrappybara/preprocessing/sentencizer.py:Sentencizer.__call__')
p('C10', 'Quoted and bracketed content is put back whole, between its delimiters, in the sentence it came from',
  'With a tokenizer that splits on whitespace, for every text without the four reserved mark characters, sentencizing succeeds and a quoted part appears in the result as the tokens of its inside between two double quotes, a bracketed part as the tokens of its inside between "(" and ")", never cut by a sentence boundary.',
  'every text free of the reserved mark characters', 'nesting, numbering and restoration interact; quantifies over all texts',
  'scrappybara/preprocessing/sentencizer.py:Sentencizer.__call__')
# ---------------------------------------------------------------- pipeline
p('C11', 'Over-long sentences are re-split and never reach the parser',
  'After re-splitting, every sentence has at most 50 tokens; a sentence that had at most 50 tokens is kept unchanged; a longer one is replaced, in place, by its maximal runs of non-splitter tokens that have at most 50 tokens; order is preserved and nothing else is added.',
  'every list of token lists', 'quantifies over all token lists; boundary at exactly 50', 'scrappybara/pipeline/pipeline.py:Pipeline.__split_tokens')
p('C12', 'One document per text, in order, independent of batching and of the other texts',
  'If sentencizing raises on no text and the language model contains no blank n-gram, Pipeline(...)(texts) returns exactly one document per text, in the order of the texts, and the i-th document has exactly the sentences and semantic tuples the pipeline returns for the i-th text alone, whatever the number of cores, the batch size and the thread schedule.',
  'every list of texts, every nb_cores, batch size, thread schedule and set of model weights', 'quantifies over all texts, configurations and thread schedules',
  'scrappybara/pipeline/pipeline.py:Pipeline.__call__', 'scrappybara/pipeline/logic_pipeline.py:LogicPipeline._logic_process', 'scrappybara/syntax/parser.py:Parser.__call__')
p('C13', 'Parallel map equals sequential map for every schedule',
  'run_multithreads(items, process, n) returns [process(x) for x in items], in order, for every n >= 1 and every interleaving of the worker threads, when process raises on no item.',
  'every list, every number of threads, every interleaving of thread steps', 'thread schedules cannot be enumerated by tests',
  'scrappybara/utils/multithreading.py:run_multithreads', 'scrappybara/utils/multithreading.py:_Thread.run')
p('C14', 'A failing item does not silently change the result of a parallel map',
  'If process raises on some item, run_multithreads does not return a list of another length as if nothing happened.',
  'every list and every item that makes process raise', 'the failure is silent: the result simply is shorter and misaligned',
  'scrappybara/utils/multithreading.py:_Thread.run', 'scrappybara/utils/multithreading.py:run_multithreads')
p('C15', 'Dividing a list loses nothing, in spite of floating point marks',
  'divide_list(items, n) returns lists whose concatenation is items; when n <= len(items) there are exactly n of them and when n > len(items) each item is alone in its list; n <= 0 is rejected. The cut positions are computed in binary64 floating point.',
  'every list of fewer than 2^53 items and every n below 2^53', 'rounding errors appear only for particular (length, n) pairs',
  'scrappybara/utils/mutables.py:divide_list')
p('C16', 'Divided lists are balanced',
  'For every n >= 1, divide_list returns min(n, len(items)) lists, none of them empty, and their sizes differ by at most one.',
  'every list and n with len(items) * n < 2^50', 'a single rounding error of the floating point marks would break it for one (length, n) pair only',
  'scrappybara/utils/mutables.py:divide_list')
p('C17', 'Batches partition the list',
  'make_batches(items, n) for n >= 1 returns non-empty batches whose concatenation is items, all of size n except the last which has at most n; n = 0 raises.',
  'every list and every n', 'quantifies over all lists and sizes', 'scrappybara/utils/mutables.py:make_batches')
p('C18', 'The logic part of the pipeline never raises on what the parser can output',
  'For every sentence of at most 50 tokens, and whatever the three neural models predict, turning the parse into nodes, standardizing, lemmatizing, fixing, chunking, canonicalizing, finding arguments and extracting semantic tuples terminates without an exception.',
  'every sentence of at most 50 tokens, every prediction of the models, every language model without a blank n-gram and every word list', 'the space of predictions is huge, and wrong predictions are exactly the untested ones',
  'scrappybara/pipeline/logic_pipeline.py:LogicPipeline.__logic_process', 'scrappybara/syntax/nodifier.py:Nodifier.__call__', 'scrappybara/syntax/arg_finder.py:ArgFinder.__call__')
# ---------------------------------------------------------------- tree and parser
p('C19', 'A tree answers exactly what was registered',
  'After any sequence of register_child calls, parent(x) is the label and parent of the last registration of x as a child, children_via(x, l) lists, in order, every child registered under x with label l, has_node, child_via, has_child_via, siblings and iteration agree with that history, and registering a node under itself is rejected.',
  'every sequence of registrations', 'quantifies over all histories', 'scrappybara/utils/tree.py:Tree')
p('C20', 'Each node of a tree is listed under one parent only',
  'After any sequence of accepted register_child calls, if c is listed among the children of p then parent(c) is p.',
  'every sequence of registrations', 'needs a child registered twice, which the parser can do',
  'scrappybara/utils/tree.py:Tree.register_child')
p('C21', 'Parsing terminates for every prediction of the transition model',
  'For a sentence with m tokens that are not out of the tree, parsing is complete after at most 2m-1 predicted transitions whatever they are, never reads an empty stack or buffer, and so the loop over incomplete parses ends.',
  'every sentence, every sequence of predictions', 'a wrong prediction sequence that loops or pops an empty stack cannot be found by sampling',
  'scrappybara/syntax/parser.py:_Parse.register_transition', 'scrappybara/syntax/parser.py:Parser.__call__')
p('C22', 'Parses are acyclic and projective',
  'Whatever is predicted, the arcs of a finished parse link distinct tokens of the sentence that are not out of the tree, contain no directed cycle, no two arcs cross, and no pair of tokens is linked twice; the returned tree has exactly these arcs.',
  'every sentence, every sequence of predictions', 'quantifies over all prediction sequences', 'scrappybara/syntax/parser.py:_Parse')
p('C23', 'Every parse has a well-defined root',
  'The tree of a parse is None exactly when no arc was created; otherwise its root is the smallest token index that takes part in an arc and has no parent, and such an index always exists. No arc carries the label ROOT.',
  'every sentence, every sequence of predictions', 'quantifies over all prediction sequences', 'scrappybara/syntax/parser.py:_Parse.root', 'scrappybara/syntax/parser.py:_build_tree')
p('C24', 'Every token has at most one head in a parse',
  'Whatever is predicted, no token receives two parents.',
  'every sentence, every sequence of predictions', 'needs a particular, untrained sequence of predictions',
  'scrappybara/syntax/parser.py:_Parse.register_transition')
p('C25', 'Training transitions rebuild the labelled tree',
  'For every labelled sentence whose arcs form a projective tree, feeding the list of transitions derived from it to the parser gives back exactly the labelled arcs with their labels, hence the same parent for every token and the same root.',
  'every labelled sentence with a projective tree', 'quantifies over all projective trees', 'scrappybara/syntax/labelled_data.py:LabelledSentence.transitions', 'scrappybara/syntax/parser.py:_Parse')
p('C26', 'A sentence without crossing arcs can be rebuilt from its transitions',
  'If have_crossing_arcs is false for every pair of child tokens of a labelled sentence with one root, its transitions rebuild its arcs.',
  'every labelled sentence', 'the counterexample needs an arc that spans the root', 'scrappybara/syntax/labelled_data.py:LabelledSentence.have_crossing_arcs', 'scrappybara/syntax/labelled_data.py:LabelledSentence.transitions')
p('C27', 'The crossing test is right and symmetric',
  'Two arcs are reported as crossing exactly when exactly one end of one of them lies strictly inside the other and the four ends are distinct; the answer does not depend on the order of the arcs nor of the ends. A labelled sentence is reported to have crossing arcs exactly when two of its arcs cross.',
  'every pair of arcs', 'quantifies over all integer pairs', 'scrappybara/syntax/labelled_data.py:_arcs_are_crossing')
p('C28', 'The parser returns exactly one tag per token',
  'For every sentence of at most 50 tokens the parser returns as many tags as there are tokens, the i-th one being what the tag model predicted for the i-th token, and raises SentenceTooLongError exactly when the sentence is longer than 50 tokens.',
  'every sentence and every prediction', 'off-by-two slices of padded sequences', 'scrappybara/syntax/parser.py:_Parse.__init__', 'scrappybara/syntax/training_samples.py:vectorize_sentence')
p('C29', 'The tagger returns exactly one tag per token',
  'Tagger.tag returns, for each sentence of at most 50 tokens, as many tags as the sentence has tokens.',
  'every sentence and every prediction', 'no test covers the tagger', 'scrappybara/syntax/tagger.py:Tagger.tag')
p('C30', 'Vectorized sentences have a fixed shape and valid codes',
  'For every sentence of at most 50 tokens, vectorization gives a 52 x 22 matrix of character codes, each smaller than len(charset), and 52 word vectors; row i+1 encodes the last 20 characters of token i between the two word delimiters; the rows after the sentence are zero. A saved charset gives the i-th character code i and an unknown character the last code; its 100 characters are the printable ASCII characters but the space, £, € and the four padding characters. The mask of token index i has 52 entries and is set at i only.',
  'every sentence, every charset with codes 0..n-1', 'boundaries at 20 characters and 50 tokens', 'scrappybara/syntax/training_samples.py:vectorize_sentence', 'scrappybara/syntax/training_samples.py:_encode_chars', 'scrappybara/syntax/charset.py:Charset')
p('C31', 'Different words are encoded differently',
  'Two different tokens of at most 20 characters, all in the charset, have different character codes after padding.',
  'every pair of tokens', 'needs the character whose code equals the padding value', 'scrappybara/syntax/training_samples.py:_encode_chars', 'scrappybara/syntax/charset.py:Charset.save')
p('C32', 'Climbing and descending a parse tree terminates and follows one label',
  'On every tree built by the parser, ancestors_via(x, l) is the chain of parents reached from x by arcs labelled l only, furthest ancestor first, without x; it is maximal. descendants_via(x, l) lists exactly the nodes reached from x by l-arcs, in depth-first order.',
  'every parse tree, node and label', 'recursion on a possibly malformed tree', 'scrappybara/utils/tree.py:Tree.ancestors_via', 'scrappybara/utils/tree.py:Tree.descendants_via')
# ---------------------------------------------------------------- nodes
p('C33', 'Nodes have unique indexes inside the sentence and only content words survive',
  'For every parse, the nodes handed to the next steps are stored under their own index, indexes are distinct and inside the sentence, no token outside the tree gives a node, and no surviving node hangs from its parent by a functional dependency.',
  'every sentence and parse', 'quantifies over all parses', 'scrappybara/syntax/nodifier.py:Nodifier.__call__')
p('C34', 'Flattening keeps every token of a flat name',
  'When several tokens are attached by FLAT arcs to a head, the text of the resulting node contains all of them.',
  'every sentence and parse', 'needs a branching flat name', 'scrappybara/syntax/nodifier.py:Nodifier.__call__')
p('C35', 'Tag fixing touches only leaves, only between noun and adjective, in any order',
  'Fixing changes nothing but the tag of leaf nodes attached by CPL to a noun or by PROP/IPROP, only from a noun tag to ADJ when the lemma is a known adjective or from ADJ to NOUN when it is a known noun and not both conditions apply; the result does not depend on the order in which nodes are visited.',
  'every node tree, word lists and visiting order', 'quantifies over all trees and orders', 'scrappybara/syntax/fixer.py:Fixer.__call__')
p('C36', 'A chunk lists the nouns of the compound in sentence order, each once',
  'The chunk given to a noun is made of the lemmas of that noun and of all nouns that reach it through unmarked CPL arcs from earlier nouns, each exactly once, in sentence order; only nouns that are not part of a larger compound get one; chunking terminates.',
  'every node tree', 'recursion over arbitrary trees', 'scrappybara/syntax/chunker.py:Chunker.__call__', 'scrappybara/syntax/chunker.py:_chunk')
p('C37', 'The suffix found by the lemmatizer fits the part of speech',
  'Lemmatizing a verb gives no suffix or a verbal one, a noun no suffix or plural, an adjective or adverb no suffix or a degree, any other tag none; for every word.',
  'every word, tag, language model and word lists', 'quantifies over words, language models and tables', 'scrappybara/normalization/lemmatizer.py:Lemmatizer.__call__')
p('C38', 'A lemma is a special form, a table entry, attested by the language model, or the word itself',
  'Unless it is one of the fixed special forms or comes from an irregular table, a lemma that differs from the lower-cased word is, after removing at most one recognized prefix, attested by the language model alone or as the last word of an attested pair; without any attestation the word is returned unchanged with no suffix. Special forms go before the tables, and the tables before the language model.',
  'every word, tag, language model and word lists', 'quantifies over words, language models and tables', 'scrappybara/normalization/lemmatizer.py:Lemmatizer.__call__', 'scrappybara/normalization/lemmatizer.py:Lemmatizer.__best_candidate')
p('C39', 'Lemmatization does not depend on the iteration order of the prefix set',
  'Detecting a prefix gives the same answer for every ordering of the prefix set (string hashing is randomized in Python), and prefix + base is the word.',
  'every word and every ordering of the prefix set', 'hash randomization makes the order differ between runs', 'scrappybara/utils/text.py:token_prefix', 'scrappybara/normalization/lemmatizer.py:Lemmatizer.__prefixes')
p('C40', 'Standardization only ever replaces a rare word by an attested spelling',
  'A word seen at least 5 times is returned unchanged; otherwise the result is the word itself or is obtained from a spelling variant attested by the language model; if no variant is attested the word is unchanged.',
  'every word and language model', 'quantifies over words and language models', 'scrappybara/normalization/standardizer.py:Standardizer.__call__')
p('C41', 'Past participles follow the spelling rules',
  'For every lemma without irregular form: a lemma ending in e gets d, a lemma ending in consonant + y gets ied instead of y, any other gets ed, possibly doubling the last consonant after a vowel when the language model prefers it; irregular forms come from the table.',
  'every lemma and language model', 'the wrong forms need a vowel before the final e', 'scrappybara/normalization/inflector.py:Inflector.past_participle')
p('C42', 'Canonical forms',
  'The canonical form is the subject form for object pronouns, the compound for chunked common nouns, the lemma followed by its particles for verbs and adjectives and the lemma otherwise; an adjective has an active verb exactly when lemmatizing it as a verb finds the past suffix.',
  'every node', 'quantifies over all nodes', 'scrappybara/normalization/canonicalizer.py:Canonicalizer.__call__')
# ---------------------------------------------------------------- language model
p('C43', 'Membership and counts of the language model',
  'x in lm holds exactly when some file line for x passes the minimum count of its order; has_ngram(x, k) holds exactly when k >= 1 and the recorded count of x (0 if unknown) is at least k.',
  'every set of files and every query', 'quantifies over all files', 'scrappybara/langmodel/language_model.py:LanguageModel.has_ngram', 'scrappybara/langmodel/language_model.py:LanguageModel.__init__')
p('C44', 'best_ngram returns the most probable known ngram',
  'best_ngram returns None exactly when none of its arguments is known, otherwise a known argument whose log-probability is maximal, the first such one.',
  'every language model and argument list', 'quantifies over all models and arguments', 'scrappybara/langmodel/language_model.py:LanguageModel.best_ngram')
p('C45', 'best_token returns the best token for the context',
  'best_token returns None exactly when no argument is known; otherwise the argument whose list of best log-probabilities, from the highest order to the unigram, is lexicographically maximal, the last such one.',
  'every language model, tokens and context', 'quantifies over all models and contexts', 'scrappybara/langmodel/language_model.py:LanguageModel.best_token', 'scrappybara/langmodel/token_context.py:TokenContext.candidates')
p('C46', 'The context of a token is explored completely',
  'candidates(n) returns, from left to right, every window of n consecutive tokens around and including the token.',
  'every context and n >= 2', 'a negative slice bound drops tokens for particular lengths only', 'scrappybara/langmodel/token_context.py:TokenContext.candidates')
p('C47', 'next_word backs off from the longest context and ranks by probability',
  'next_word(text) returns the continuations of the longest suffix of the text, of at most max_order-1 tokens, that has any, all of them, by decreasing probability, truncated to the limit.',
  'every language model and text', 'quantifies over all models and texts', 'scrappybara/langmodel/language_model.py:LanguageModel.next_word')
p('C48', 'top_ngrams ranks all ngrams of an order',
  'top_ngrams(k, limit) is the list of all known ngrams of k tokens with count and probability, by decreasing probability, cut at the limit.',
  'every language model, order and limit', 'quantifies over all models', 'scrappybara/langmodel/language_model.py:LanguageModel.top_ngrams')
p('C49', 'Extracted ngrams are exactly the valid windows',
  'extract_ngrams(sentences, n) lists, sentence by sentence and left to right, every window of n consecutive tokens inside one sentence whose tokens are all valid (only ASCII letters and not capitalized, or "I"), lower-cased and joined by single spaces.',
  'every list of sentences and n >= 1', 'quantifies over all sentences', 'scrappybara/langmodel/ngrams_extraction.py:extract_ngrams')
p('C50', 'The ngram store counts occurrences',
  'After any sequence of make_ngram calls, the store holds each text passed once, in order of first occurrence, and its count is the number of calls made with it.',
  'every sequence of calls', 'quantifies over all histories', 'scrappybara/langmodel/ngram_store.py:NgramStore.make_ngram')
p('C51', 'Building a language model counts every text once, whatever the number of processes',
  'The ngram counts the builder computes equal the number of occurrences over all texts of the iterator and do not depend on the number of worker processes.',
  'every sequence of texts and nb_processes >= 1', 'batch boundaries depend on the number of texts modulo the number of processes', 'scrappybara/langmodel/language_model_builder.py:LanguageModelBuilder.__call__')
p('C52', 'Maximum likelihood probabilities form a distribution per order',
  'With maximum likelihood estimation, for each order that has ngrams, every probability is count / total, positive and at most 1, they sum to 1, and they do not depend on the number of processes.',
  'every multiset of ngrams', 'quantifies over all corpora', 'scrappybara/langmodel/mle_smoother.py:MLESmoother')
p('C53', 'Maximum likelihood smoothing works on every corpus',
  'MLESmoother never raises, whatever ngrams it is given.',
  'every corpus', 'needs a corpus with no ngram of some order', 'scrappybara/langmodel/mle_smoother.py:MLESmoother.__call__')
p('C54', 'Modified Kneser-Ney smoothing is well defined on every rich enough corpus',
  'For the ngrams of any corpus, Kneser-Ney smoothing raises exactly ModifiedKneserNeyNotEnoughDataError and exactly when for some order >= 2 there is no ngram with count 1, 2, 3 or 4; otherwise all lookups succeed, no denominator is zero and every ngram gets a probability.',
  'every corpus and maximal order >= 2', 'lookup completeness depends on a closure property of the extracted ngrams', 'scrappybara/langmodel/mkn_smoother.py:MKNSmoother', 'scrappybara/langmodel/mkn_smoother.py:_prepare_mkn')
p('C55', 'Kneser-Ney unigram probabilities form a distribution',
  'The unigram probabilities computed by Kneser-Ney smoothing are non-negative and sum to 1.',
  'every corpus that is rich enough', 'quantifies over all corpora', 'scrappybara/langmodel/mkn_smoother.py:MKNSmoother.calc_unigram_probas')
p('C56', 'Kneser-Ney probabilities follow the interpolation recursion over true counts',
  'The probability given to every ngram is (count - discount) / (count of its prefix) plus back-off mass times the probability of its suffix, where the count is the true count at the highest order and the true number of distinct preceding tokens below; the discount and the back-off mass are those of modified Kneser-Ney, except that below the highest order the discount is the one of the order above while the back-off mass uses the discounts of the order itself (the textbook uses the same in both, so that probabilities sum to 1). The values do not depend on the number of processes.',
  'every corpus and nb_processes', 'counts are kept under string keys with wildcards; collisions and chunk boundaries matter', 'scrappybara/langmodel/mkn_smoother.py:MKNSmoother.__mkn_pack', 'scrappybara/langmodel/mkn_smoother.py:_calc_proba_recursive')
p('C57', 'Kneser-Ney probabilities are probabilities',
  'Every value returned by calc_higher_order_probas lies between 0 and 1.',
  'every corpus', 'the values depend on counts of counts', 'scrappybara/langmodel/mkn_smoother.py:MKNSmoother.calc_higher_order_probas')
p('C58', 'A saved language model can be loaded back',
  'Loading the files written by the builder with all minimum counts 1 gives exactly the ngrams with positive probability, with their counts, and probabilities equal up to 17 decimals.',
  'every corpus', 'formatting and parsing over all values', 'scrappybara/langmodel/language_model_builder.py:LanguageModelBuilder.__write_ngram_file', 'scrappybara/langmodel/language_model.py:LanguageModel.__init__')
# ---------------------------------------------------------------- semantics
p('C59', 'Extracted tuples obey the grammar of codes',
  'Every extracted semantic tuple has one of the shapes *I, *T*, *R*, *C*, *T*I, *T*T*, *T*C*, where the first argument is a noun-like one (N O P S U); no extraction raises.',
  'every set of nodes', 'quantifies over all node graphs', 'scrappybara/semantics/semantic_tuple_extractor.py:SemanticTupleExtractor')
p('C60', 'Negation is carried by the verb and is the parity of the negations',
  'In an extracted tuple only the second argument can be negative, and it is negative exactly when an odd number of the distinct nodes involved are negated.',
  'every set of nodes', 'quantifies over all node graphs', 'scrappybara/semantics/semantic_tuple_extractor.py:SemanticTupleExtractor', 'scrappybara/utils/maths.py:xnor')
p('C61', 'Every word of a tuple comes from the sentence',
  'Every argument word of an extracted tuple is the canonical form of a node of the same sentence, the active verb of one, or "be" and/or the past participle of one.',
  'every sentence and parse', 'quantifies over all parses', 'scrappybara/semantics/semantic_tuple_extractor.py:SemanticTupleExtractor', 'scrappybara/syntax/arg_finder.py:ArgFinder')
p('C62', 'Tuple codes, arguments and text agree',
  'For every tuple of valid arguments, len(code) = len(tuple), code[i] is the code of argument i, the text is code(word, word, ...) with NOT before negated words, and an argument with a code outside the eleven valid ones is rejected. The n-th argument is what arg(n) returns.',
  'every tuple', 'quantifies over all argument lists', 'scrappybara/semantics/semantic_tuple.py:SemanticTuple', 'scrappybara/semantics/argument.py:Argument')
p('C63', 'Subjects and objects are distributed over coordination',
  'Every node attached as a subject (object) to a verb, or the noun a relative or reflexive pronoun stands for, is registered, with all its direct conjuncts, as subject (object) of the verb and of the conjuncts of the verb that have no subject of their own (no dependent); nothing else is registered apart from the two long-distance rules.',
  'every node tree', 'quantifies over all trees', 'scrappybara/syntax/arg_finder.py:ArgFinder.__call__')
p('C64', 'A node is negated exactly when it has a negation dependent',
  'After argument finding, a node is negative exactly when one of its children is attached by NEG.',
  'every node tree', 'quantifies over all trees', 'scrappybara/syntax/arg_finder.py:ArgFinder.__call__')
# ---------------------------------------------------------------- small utilities
p('C65', 'xnor is the parity of False',
  'xnor of at least two booleans is True exactly when an even number of them are False, hence does not depend on their order; with fewer than two it raises.',
  'every list of booleans', 'quantifies over all lists', 'scrappybara/utils/maths.py:xnor')
p('C66', 'Word ending and prefix helpers cut words exactly',
  'token_start(w, e, k) returns s exactly when w = s + e with s non-empty and of at least k characters, e being non-empty; token_prefix returns prefix and base whose concatenation is the word.',
  'every word', 'boundary conditions on lengths', 'scrappybara/utils/text.py:token_start', 'scrappybara/utils/text.py:token_prefix')
p('C67', 'Text marking can be undone',
  'detach_attributes(attach_attributes(t, *a)) gives back t and the attributes, dissociate(associate(a, b)) gives back (a, b) and defunctionalize(functionalize(f, a)) gives back (f, a), exactly when no part contains the separator; otherwise the parts are not recovered.',
  'every list of strings', 'quantifies over all strings', 'scrappybara/utils/text.py:attach_attributes', 'scrappybara/utils/text.py:associate', 'scrappybara/utils/text.py:functionalize')
p('C68', 'has_only_lowercase_letters accepts only lowercase letters',
  'has_only_lowercase_letters(w) holds exactly when w is a non-empty string of a-z.',
  'every word', 'never called by a test', 'scrappybara/utils/text.py:has_only_lowercase_letters')
p('C69', 'Times are displayed exactly',
  'The displayed h:mm:ss satisfies 3600h+60m+s = floor(time), m and s below 60 and written with two digits; the total time is the sum of all laps and laps never overlap.',
  'every duration and sequence of laps', 'quantifies over all durations', 'scrappybara/utils/timer.py:_time_string', 'scrappybara/utils/timer.py:Timer')
p('C70', 'Grouping helpers and dictionary reversal',
  'Appending pairs to a dictionary of lists groups the items by key in order of arrival, keys in order of first arrival; a dictionary of sets keeps each item once; a dictionary of dictionaries of lists groups by both keys; reversing a dictionary maps each value to the last key that had it, and reversing twice is the identity when values are distinct.',
  'every sequence of pairs', 'quantifies over all histories', 'scrappybara/utils/mutables.py:append_to_dict_list', 'scrappybara/utils/mutables.py:add_in_dict_set', 'scrappybara/utils/mutables.py:append_in_dict_dict_list', 'scrappybara/utils/mutables.py:reverse_dict')
p('C71', 'A regular lemma undoes exactly one inflection, and lemmatizing never raises',
  'Lemmatizing a token without whitespace never raises; a lemma that is neither a special form nor from an irregular table, and that differs from the lower-cased word, is obtained by undoing exactly one regular inflection of the part of speech: the one the returned suffix names; -ies, -ied, -iest, -ier and the like are only undone after a consonant.',
  'every token without whitespace, tag, language model and word lists', 'quantifies over words, language models and tables', 'scrappybara/normalization/lemmatizer.py:Lemmatizer.__call__')
p('C72', 'Every word outside flat names and particles makes its own node',
  'Every word of the parse tree that is not attached by FLAT, heads no FLAT and is not a particle of a verb becomes one node with its own text and tag, the particles that follow it and whether "to" precedes it; it is kept unless it is functional, and the dependencies between such words are those of the parse.',
  'every sentence and every tree the parser can build', 'quantifies over all parses', 'scrappybara/syntax/nodifier.py:Nodifier.__call__')
p('C73', 'The other arguments of a node are exactly those of its dependents',
  'After argument finding, the indirect objects, existing things, properties and indirect properties of a verb are the nodes attached to it by that label and their direct conjuncts; the adjectives of a noun, the agents of a participle, and the properties that a noun gets from a copula, a participle or an indirect property are exactly those given by the dependencies.',
  'every node tree', 'quantifies over all trees', 'scrappybara/syntax/arg_finder.py:ArgFinder.__call__')
p('C74', 'The tuples of a sentence are exactly those of the extraction rules',
  'Given the nodes, their arguments and negations, the extracted tuples are exactly those of the documented rules: intransitive, transitive, recipient, passive, property, adjective, active form of a participle with an agent, and clause tuples; extraction never raises.',
  'every set of nodes with any arguments', 'quantifies over all node graphs', 'scrappybara/semantics/semantic_tuple_extractor.py:SemanticTupleExtractor')
p('C75', 'The words of a sentence are normalized in one fixed order',
  'In the result of the logic part of the pipeline every node has: the standard spelling of its word; the lemma of that spelling for the tag of the parser; a tag corrected from that lemma; a compound made from the lemmas after all tags are corrected; and a canonical and an active form made from the final tag, lemma, particles and compound. Index, original words, particles and "to" are those of the tokens.',
  'every sentence, parse, language model and word lists', 'each step reads what an earlier step wrote in shared mutable nodes; only the composition over all trees shows no step sees a stale value',
  'scrappybara/pipeline/logic_pipeline.py:LogicPipeline._logic_process', 'scrappybara/normalization/canonicalizer.py:Canonicalizer', 'scrappybara/normalization/lemmatizer.py:Lemmatizer')

p('C76', 'Training data are exactly the labelled sentences',
  'Extracting training data from labelled sentences gives parallel columns whose lines are, in any order of the shuffle, exactly one example per sentence (tags, dependencies) or per transition: the sentence as the parser vectorizes it, the labels of token i at position i + 1 of a row of 52 padded with zeros, the two tokens of a transition as one-hot masks, and the code of the transition; no two transitions of a sentence are about the same two tokens. A sentence without root counts as empty, no sample gives no column, a rooted sentence of more than 50 tokens or with a token that is its own parent is refused, an unknown name raises KeyError.',
  'every list of labelled sentences, every shuffle, charset and word vectors', 'the shuffle is random and the data arbitrary; a column out of step with the others only shows as a badly trained model',
  'scrappybara/syntax/labelled_data.py:extract_ptags_training_data', 'scrappybara/syntax/labelled_data.py:extract_pdeps_training_data', 'scrappybara/syntax/labelled_data.py:extract_trans_training_data', 'scrappybara/syntax/training_samples.py:TransSample', 'scrappybara/syntax/labelled_data.py:LabelledSentence')
p('C77', 'Models that have learned their training data make the parser reproduce the labels',
  'If the three models answer, on each line of the data extracted from projective sentences of at most 50 tokens, the last column of that line, then parsing the tokens of these sentences, with any number of threads and batch size, returns exactly their labelled tags and trees (no tree for a sentence without arc).',
  'every list of projective labelled sentences, every shuffle, every models that fit the extracted data, every number of threads and batch size', 'ties training and parsing together for all data; a shift by one in either would only show as a lower accuracy',
  'scrappybara/syntax/labelled_data.py:extract_trans_training_data', 'scrappybara/syntax/parser.py:Parser.__call__', 'scrappybara/syntax/training_samples.py')

p('C78', 'Word lists are read line by line',
  'Whatever the newlines of a text file (LF, CR LF or CR, a last line with or without newline), loading a set gives exactly its lines without the whitespace at both ends; loading a dictionary gives each key the value of its last line, the lines in order when no key is repeated, and raises ValueError if some line has not exactly two columns. The participle a pipeline knows for a verb is the last one of its table.',
  'every content of the files', 'files are edited by hand: newlines, blanks, repeated keys and missing columns cannot be enumerated',
  'scrappybara/utils/files.py:load_set_from_txt_file', 'scrappybara/utils/files.py:load_dict_from_txt_file', 'scrappybara/pipeline/logic_pipeline.py:LogicPipeline.__init__')
p('C79', 'Irregular forms and lemmas agree',
  'With any tables, the participle given for a verb of the table is one of its participles and is lemmatized back to this verb unless it is a special form. With the tables shipped with the library, every irregular form, in any case, is lemmatized to the lemma beside it, and every verb of the table of participles is given its participle, whatever the language model, the nouns and the adjectives.',
  'every tables, word, letter case and language model', 'the language model is arbitrary, and a special form or an entry of another table could take precedence',
  'scrappybara/normalization/lemmatizer.py:Lemmatizer.__irregular_lemma', 'scrappybara/normalization/inflector.py:Inflector.past_participle', 'scrappybara/pipeline/logic_pipeline.py:LogicPipeline.__init__', 'scrappybara/data/english/irregular_past_participles.txt')
p('C80', 'Word vectors are those of the last line of the word',
  'The vector of a word, whatever its case, is made of the numbers of the last line of the file that starts with this word in lower case, if the language model knows it, and 100 zeros otherwise; the size of the set is one more than the number of words kept; vectors of 100 numbers give a set the parser can use. A blank line raises IndexError, a vector that is not made of numbers raises.',
  'every file of word vectors and every language model', 'the file has hundreds of thousands of lines and depends on the language model',
  'scrappybara/syntax/wordset.py:Wordset.save', 'scrappybara/syntax/wordset.py:Wordset.__getitem__', 'scrappybara/syntax/wordset.py:Wordset.__len__')

p('C81', 'A labelled sentence gives the tuples its parse would give',
  'Testing the logic on a labelled sentence with one root, heads in the sentence and no cycle always returns the tuples extracted from the tree of its arcs, whatever the number of threads; a sentence without root gives no tuple, and a failure of the logic is an IndexError. When no token has two subjects, objects, markers or properties, these tuples do not depend on the order of the arcs, so models that have learned the sentence make the pipeline return the same tuples for its text. With two subjects they can differ.',
  'every labelled sentence, order of arcs, language model, word lists, number of threads, and models that fit the data', 'the two trees are built in different orders and the extraction reads first children; only a proof over all trees shows where the order matters',
  'scrappybara/pipeline/logic_pipeline.py:LogicPipeline.test_sample', 'scrappybara/syntax/labelled_data.py:LabelledSentence', 'scrappybara/pipeline/pipeline.py:Pipeline.__call__')

p('C82', 'Debugging a text shows what the pipeline does to its first sentence',
  'When no sentence of a text has more than 50 tokens, debugging the text returns its first sentence, the parse of that sentence, the nodes made from it and the tuples extracted from these, whatever the number of threads and the batch size; these are the tuples of the first sentence of the document the pipeline makes from the text. A list of at most 50 tokens is debugged as one sentence. With a longer sentence the returned parse can be that of another sentence.',
  'every text, sentencizer, language model, word lists, models, number of threads and batch size', 'the alignment of sentences and parses depends on how sentences are divided among threads and batches and the tuples are extracted a second time from nodes that were already changed',
  'scrappybara/pipeline/pipeline.py:Pipeline._test_parse', 'scrappybara/pipeline/pipeline.py:Pipeline._test_process', 'scrappybara/pipeline/logic_pipeline.py:LogicPipeline._logic_process')

p('C83', 'Predictions are the most probable classes, whatever the batches',
  'The class predicted from a row of probabilities is the most probable one, the first of these when there are several, and the first value that is not a number when there is one. When the networks answer each sentence of a batch on its own, with 52 rows of 17 tags, 52 rows of 25 dependencies and one row of 4 transitions, the parser applies to each sentence the most probable tags, dependencies and transitions of that sentence, whatever the batch size, the number of threads and the other sentences, and the tagger the most probable tags. With a network that mixes the sentences of a batch the tags depend on the batch size.',
  'every row of probabilities, network, list of sentences, batch size and number of threads', 'the alignment of predictions with sentences must hold for every size of batch and every number of steps that sentences still need',
  'scrappybara/syntax/models.py:PTagsModel.predict', 'scrappybara/syntax/models.py:PDepsModel.predict', 'scrappybara/syntax/models.py:TransModel.predict', 'scrappybara/syntax/parser.py:Parser.__call__', 'scrappybara/syntax/tagger.py:Tagger.tag')

p('C84', 'The warnings of a labelled sentence are a JSON text that reads back as the warnings',
  'A labelled sentence without warning gives no text. Otherwise its text is a JSON object with one member for each token that has warnings, in the order of their first warnings; the key reads as the index of the token and the value lists all its warnings in the order they were registered, with their comments, whatever characters they contain, and their indexes.',
  'every sequence of warnings, comments of any characters, indexes of any sign and size', 'quotation marks, backslashes and control characters in comments, signs and sizes of numbers and repeated tokens combine without bound',
  'scrappybara/syntax/labelled_data.py:LabelledSentence.register_warning', 'scrappybara/syntax/labelled_data.py:LabelledSentence.warnings_json', 'scrappybara/utils/mutables.py:append_to_dict_list')

p('C85', 'What modified Kneser-Ney smoothing gives to all words after a context',
  "The probabilities stored for the ngrams that extend a context by one word sum exactly to the share of the context's occurrences that are followed by a word, less the part of the discounted mass that the lower order gives to words never seen after the context. If the discounts of the order are not negative, the probabilities of the bigrams that begin with a word sum to at most 1, and so do those of longer ngrams whenever their lower-order values do.",
  'every corpus rich enough to be smoothed, every order, every context, every number of processes', 'the sum runs over all ngrams that share a context, in corpora of any size',
  'scrappybara/langmodel/mkn_smoother.py:MKNSmoother.__call__', 'scrappybara/langmodel/mkn_smoother.py:_calc_proba_recursive', 'scrappybara/langmodel/mkn_smoother.py:_prepare_mkn')

p('C86', 'A text that cannot be cut into sentences costs no other text its document',
  'If the sentencizer raises on some texts, the pipeline still returns the documents of all other texts.',
  'every list of texts, any of which may be unreadable, every number of cores, batch size and schedule of the threads', 'which documents are lost depends on how the texts are shared out among the cores; the call reports nothing',
  'scrappybara/pipeline/pipeline.py:Pipeline.__call__', 'scrappybara/utils/multithreading.py:run_multithreads', 'scrappybara/utils/mutables.py:divide_list')

p('C87', 'The pipeline gives every ordinary text its own document',
  "With its own sentencizer and tokenizer, networks that answer each sentence on its own and a language model read from files, a call of the pipeline returns one document for each ordinary text, in order. Each is the document that a call with this text alone returns, and it consists of the tuples of the most probable parses of the text's sentences.",
  'every list of ordinary texts, networks, language model files, word lists, number of cores, batch size and schedule of the threads', 'it ranges over all texts, all networks and all interleavings of the threads',
  'scrappybara/pipeline/pipeline.py:Pipeline.__call__', 'scrappybara/preprocessing/sentencizer.py:Sentencizer.__call__', 'scrappybara/syntax/parser.py:Parser.__call__', 'scrappybara/pipeline/logic_pipeline.py:LogicPipeline._logic_process')

p('C88', 'The sentences of a text spell the text',
  'For every ordinary text without the reserved characters, the tokens of all sentences that the default Sentencizer returns, put together in order, are the text without its whitespace, with straight quotation marks and a hyphen for each run of dashes. Paragraph marks do not count. The only other changes are feet and inches spelled out after a number and runs of stars cut to one star. If no number is followed by a quotation mark and no star by a star, there are no other changes.',
  'all ordinary texts, of any length, with any number of lines and any nesting and pairing of quotation marks and brackets, over any character database that agrees with Unicode on the characters the code names', 'The text goes through marks for quotations and brackets, some forty rewriting rules and the restoration of the marks; any combination of them could lose, repeat or move characters.',
  'scrappybara/preprocessing/sentencizer.py: Sentencizer.__call__', 'scrappybara/preprocessing/tokenizer.py: Tokenizer.__call__')

p('C89', 'No token contains a paragraph mark that the text does not contain',
  'If a text contains no paragraph mark, no token of the sentences that the default Sentencizer returns contains one.',
  'all ordinary texts without the reserved characters, of any length', 'The mark is inserted by one rule and removed by another part of the code; whether it can survive depends on every way in which full stops, quotation marks and brackets can be combined.',
  'scrappybara/preprocessing/sentencizer.py: Sentencizer.__call__, Sentencizer.__split_sentences')

p('C90', 'A labelled sentence shows the tokens it was made of',
  'A LabelledSentence made of token tuples with a ROOT shows its tokens in order and complete: iterating gives them all, len() counts them, item i is the i-th one from the start and item i - n the same one, any other integer raises IndexError, and str() is the tokens with one space between them, which reads back as the tokens when none is empty or contains whitespace. Its valid indexes are, in increasing order, those of the tokens that are not NODEP, and is_leaf(i) is true exactly when no token is labelled as hanging from token i. Without a ROOT the sentence is empty.',
  'every list of token tuples, every index', 'A test looks at a few sentences; that no token is lost or shifted for any sentence, and that indexes from the end agree with those from the start, is a statement about all lists.',
  'scrappybara/syntax/labelled_data.py: LabelledSentence.__str__, __len__, __getitem__, __iter__, valid_idxs, is_leaf')

p('C91', 'The tokens of ordinary English text are its words, numbers, contracted words, web addresses and marks',
  "Let a text be made of ASCII words, numbers with digits, commas and points, words with a contracted word (n't, 're, 'll, 've, 'm, 'd, 's in any case) and words joined with hyphens, each followed by at most one of the marks , ; : ! ? . , and of web addresses (http://, https:// or www., then parts with points between them), each followed by at most a full stop and none a part of another one, all separated by any whitespace. Then the tokenizer returns exactly: each word, hyphens and all, each number and each address; cannot in two tokens; a contracted word cut from its word; each mark as its own token. A full stop stays with its word after a single letter, or when the next word is no address and does not start with a capital, or when the word, or its last part after a hyphen, is one of the known abbreviations and another word, not an address, follows. Left out: addresses with quotes or opening brackets in them, or with the text _PROTECTED_, or with another mark than a full stop after them (it is read as a part of the address); cannot as a part of a word with hyphens, a full stop after a number with a point, after a contracted word when it would stay there, and before a number that has its own full stop.",
  'every text of that form, of any length, with any whitespace, and every Unicode database', 'some fifty rewrite rules run one after the other over the whole text; a test shows one text, while the claim is that no combination of words, numbers, contractions and marks makes the rules interfere',
  'scrappybara/preprocessing/tokenizer.py: Tokenizer.__call__', 'scrappybara/preprocessing/tokenizer.py: __re_no_split, __re_always_split, __re_segment_off, __re_restore, __re_reattach, __abbr')

p('C92', 'The sentences of ordinary English text end at ! and ? and colons, at full stops that do not belong to a word, and at ends of lines',
  'Let every line of a text be made of words, numbers, contracted words, web addresses and marks as in C91, or be empty. Then the sentencizer with the tokenizer returns, line after line, the tokens of C91 cut into sentences: one ends after each word with ! or ? or a colon, after each word with a full stop that does not belong to the word (as it does after an initial, an abbreviation before a word, or before a word without a capital), and at the end of the line. An empty line, at the start or at the end of the text, gives one sentence with one empty token.',
  'every text whose lines have that form, with any number of lines and any whitespace between them, and every Unicode database', 'where a sentence ends depends on the next word and on all rewrite rules before; tests show some texts only',
  'scrappybara/preprocessing/sentencizer.py: Sentencizer.__call__, __split_sentences', 'scrappybara/preprocessing/tokenizer.py: Tokenizer.__call__')

p('C93', 'The parts an n-gram shows are the words of its text',
  'For every text: the tokens of its n-gram are its white-space separated words and its order is their number; the last token is the last word; without_last_token is the other words with one space between, wc_last_token is the same followed by the wildcard, continuous_ngram has a wildcard on both sides; prepend_wc puts the wildcard and a space before the text, and the result has exactly one token more; lower_order(k) is the last k words, one space between, for each k from 1 to order-1. A text of fewer than two words has no without_last_token, wc_last_token, continuous_ngram, and an order that is 0 or not lower is refused: these raise AssertionError.',
  'every text, every order k, every Unicode table that agrees with Python on ASCII', 'Language model keys are built from these parts; a wrong boundary changes only some orders or some texts, so examples of one order do not settle it.',
  'scrappybara/langmodel/ngram.py: Ngram.last_token, Ngram.without_last_token, Ngram.wc_last_token, Ngram.continuous_ngram, Ngram.prepend_wc, Ngram.lower_order')

p('C94', 'A regular form of a known lemma is lemmatized to it, except in six listed readings',
  "Take a word without spaces that is no special form and in no irregular table, with or without its prefix. Suppose it is the regular inflection for the given tag of some lemma, with some suffix. Suppose the language model has counted that lemma, or what follows the word's prefix in it (at least three characters). Suppose that no other lemma of which the word would be a regular inflection ends an n-gram of the model, with or without a prefix. Then the lemmatizer returns exactly that lemma and that suffix if and only if the form is not hidden. A form is hidden when: a consonant precedes icking/icked/icks/ied/ies (verbs), ieves/ies (nouns), iest/ier (adjectives) and the lemma is not one of the few those endings leave (so tricking is never undone to trick, nor sieves to sieve); the noun ends in -ves and the lemma is not in -f/-fe/-ve; a vowel and doubled consonant precede the ending and the lemma keeps the doubled consonant and adds -e (programmed, programme); the word is only a vowel, a doubled consonant and the ending (upped, up); the -er adjective is itself in the adjective list; or the noun in -s has a lemma in -s or a known plural in -ses.",
  'every Unicode table, every loaded language model, every lexicon with the shipped prefixes, every word, tag, lemma and suffix', 'The rules are tried in an order and the first that matches decides; whether one rule shadows another depends on the word, the model and the prefix. A test can show one word being undone, not that no other word is lost.',
  'scrappybara/normalization/lemmatizer.py: Lemmatizer.__call__, __best_candidate, __irregular_lemma', 'scrappybara/utils/text.py: token_start, token_prefix, vowel_double_consonant_endings')

p('C95', 'Which of two spellings the standardizer gives',
  'An ASCII token counted at least five times is returned as it is. For any other, the first of seven families of double spellings (color/colour, analyze/analyse, defense/defence, catalog/catalogue, traveling/travelling, ae/e, oe/e) that holds the token and has a spelling attested by the language model decides: the result is the token in the most likely of the two spellings, the first one if they are equally likely, with the ending of the token. A token without such a family is returned as it is. The families are cut in one way only: at least three letters, then the varying part, then one of the listed endings, whatever the case.',
  'every Unicode table, every loaded language model and order of likelihoods, every ASCII token', 'The rules are regular expressions with a greedy beginning, tried in order against any word and any model; a test can fix one word and one model.',
  'scrappybara/normalization/standardizer.py: _split_token, Standardizer.__call__', 'scrappybara/langmodel/language_model.py: LanguageModel.best_ngram')

p('C96', 'A past participle made by the inflector is lemmatized back to its verb',
  'For a verb of at least three letters without irregular participle, whose participle is no special or irregular form, which the language model has counted and whose rivals (other verbs with the same regular forms) it has not: lemmatizing the participle as a verb gives back the verb and the suffix of the past, exactly when the verb is not one of those whose participle is read in another way: consonant and -i, -ie, -ick or -icke after one more letter, or a doubled consonant after a vowel and then -e.',
  'every Unicode table, every loaded language model, lexicon tables, prefix order and verb', 'Inflector and lemmatizer are two sets of spelling rules written separately, both steered by the language model; tests check each on some words, never that one undoes the other on all.',
  'scrappybara/normalization/inflector.py: Inflector.past_participle', 'scrappybara/normalization/lemmatizer.py: Lemmatizer.__call__', 'scrappybara/langmodel/language_model.py: LanguageModel.best_token')

p('C97', 'The networks answer each sentence of a batch on its own',
  'On any batch of well-formed matrices (52 words of 22 character codes in the charset, 52 word vectors of 100 numbers, codes of tags and dependencies, masks true once) the three networks raise nothing and give 52 rows of 17 tags, 52 rows of 25 dependencies and one row of 4 transitions for each sentence, which are those the sentence gets alone. So the parser gives each list of at most 50 tokens the same tags and tree whatever the threads and the size of the batches, and the pipeline returns for each ordinary text the document a call with this text alone returns. What the networks see of the characters of a word depends on this word alone.',
  'all weights of the right sizes, every arithmetic, every charset and word vectors, all batches, lists of tokens, numbers of threads and batch sizes', 'The transition network flattens the whole batch to select two states for each sentence, and Keras cuts the batch into parts of 32; a test on some sentences with some weights cannot show that no sentence ever gets the state of another.',
  'scrappybara/syntax/models.py: _SentenceModel._char_model', 'scrappybara/syntax/models.py: PTagsModel', 'scrappybara/syntax/models.py: PDepsModel', 'scrappybara/syntax/models.py: TransModel', 'scrappybara/syntax/parser.py: Parser.__call__')

p('C98', 'Every web address of an English text is one token',
  'In a text as in C91, every web address is one token of the result, alone or with the full stop after it, whatever addresses are in the text and however often.',
  'every text of words, numbers, marks and web addresses, and every address in it', 'the addresses are replaced by keys one after the other, over the whole text, and put back at the end; whether this keeps each one whole depends on all the others',
  'scrappybara/preprocessing/tokenizer.py: Tokenizer.__protect_text', 'scrappybara/preprocessing/tokenizer.py: __re_protect', 'scrappybara/preprocessing/tokenizer.py: Tokenizer.__call__')

p('C99', 'A name of single capital letters and an ampersand is one token',
  'In a text of words, ampersands and names such as R & D, A B & C and A & B C, where a name or a single capital letter is followed by nothing or by a word that is no single capital letter, the tokenizer gives each name as one token without white space (R&D, AB&C, A&BC), and every other word and every other ampersand as one token.',
  'every text made of these pieces, of any length, with any white space between them, and every Unicode table that agrees with ASCII', 'three rules join the pieces one after the other, over the whole text, and each one must leave alone what is no name, wherever it is',
  'scrappybara/preprocessing/tokenizer.py: Tokenizer.__re_reattach', 'scrappybara/preprocessing/tokenizer.py: Tokenizer.__re_segment_off', 'scrappybara/preprocessing/tokenizer.py: Tokenizer.__call__')

with open(os.path.join(os.path.dirname(__file__), '..', 'properties.jsonl'), 'w') as f:
    for x in P:
        f.write(json.dumps(x, ensure_ascii=False) + '\n')
print(len(P))
