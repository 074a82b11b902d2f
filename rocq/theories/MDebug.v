(** Model of the entry points of pipeline/pipeline.py that return every step for the first sentence. *)
From Coq Require Import Ascii String.
From Coq Require Import List NArith ZArith Arith Bool.
From Verif Require Import PyBase Regex MUtils MTree MVector MParser MNgram MLangModel MNormal MNode MSem MPipeline.
Import ListNotations.

Section Debug.
  Context (V : Type) (v0 : V) (U : udb) (M : models V) (cs : charset) (ws : wordset V).
  Context (P L : Type) (leL : L -> L -> bool) (zero : P) (ninf : L) (m : lm P L) (lx : lexicon) (nouns : list str).
  Context (sentencize : str -> res (list (list str))).
  Notation logic := (logic_process U P L leL zero ninf (lm_tokenize U) m lx nouns).

  (** The nodes of a sentence: a dictionary of references, the objects and their relations *)
  Definition nodes_of : Type := (heap * relheap * dict nat nat)%type.
  (** pipeline/pipeline.py:79-83 [__process_tokens] and logic_pipeline.py:43-52 [_logic_process]: as in [pipeline_call], here with the
      objects of the nodes *)
  Definition process_tokens (nb_cores batch_size : Z) (token_lists : list (list str)) (chunk_common_nouns : bool)
    : res (list (list tag) * list (option tree) * list nodes_of * list (list stuple)) :=
    let! (tags, trees) := parser_call V v0 U M cs ws nb_cores batch_size token_lists in
    let! results := run_multithreads (fun '(tokens, tags, tree) => logic tokens tags tree chunk_common_nouns) (zip3 token_lists tags trees) nb_cores in
    Ok (tags, trees, map (fun '(h, R, d, _) => (h, R, d)) results, map (fun '(_, _, _, s) => s) results).

  (** pipeline/pipeline.py:88-95 [_test_parse]; the argument is a list of tokens or a string *)
  Inductive test_input := InTokens (tokens : list str) | InText (text : str).
  Definition test_parse (nb_cores batch_size : Z) (input : test_input) : res (list str * list tag * option tree * nodes_of) :=
    let! tokens := (match input with InTokens tokens => Ok [tokens] | InText text => sentencize text end) in
    let! (tags, trees, node_dicts, _) := process_tokens nb_cores batch_size tokens true in
    let! tokens0 := index tokens 0 in
    let! tags0 := index tags 0 in
    let! trees0 := index trees 0 in
    let! nodes0 := index node_dicts 0 in
    Ok (tokens0, tags0, trees0, nodes0).
  (** pipeline/pipeline.py:97-102 [_test_process]: the tuples are extracted a second time from the nodes *)
  Definition test_process (nb_cores batch_size : Z) (text : str) : res (list str * list tag * option tree * nodes_of * list stuple) :=
    let! token_lists := sentencize text in
    let! (tags, trees, node_dicts, _) := process_tokens nb_cores batch_size token_lists true in
    let! stuples := mapM (fun '(h, R, d) => extract h R (past_participle P L leL zero ninf (lm_tokenize U) m (lx_lemma_pp lx)) (dvalues d)) node_dicts in
    let! tokens0 := index token_lists 0 in
    let! tags0 := index tags 0 in
    let! trees0 := index trees 0 in
    let! nodes0 := index node_dicts 0 in
    let! stuples0 := index stuples 0 in
    Ok (tokens0, tags0, trees0, nodes0, stuples0).
End Debug.
