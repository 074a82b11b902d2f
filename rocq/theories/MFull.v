(** Model of Pipeline.__call__ (scrappybara/pipeline/pipeline.py) where the parser asks the networks for predictions batch by batch
    (MBatch.v) and every parallel map is any execution of its threads (MUtils.v). *)
From Coq Require Import Ascii String.
From Coq Require Import List NArith ZArith Arith Bool.
From Verif Require Import PyBase Regex MUtils MTree MVector MParser MBatch MNgram MLangModel MNormal MNode MSem MTokenizer MPipeline.
Import ListNotations.
Local Open Scope nat_scope.

Section Full.
  Context (V F : Type) (v0 : V) (U : udb) (le : F -> F -> bool) (N : networks V F) (cs : charset) (ws : wordset V).
  Context (P L : Type) (leL : L -> L -> bool) (zero : P) (ninf : L) (m : lm P L) (lx : lexicon) (nouns : list str).
  Context (sentencize : str -> res (list (list str))).

  (** syntax/parser.py:108-130 [__call__], the parallel maps of lines 110 and 129 being any execution of their threads *)
  Definition batched_returns (nb_processes batch_size : Z) (token_lists : list (list str)) (tags : list (list tag)) (trees : list (option tree)) : Prop :=
    exists ms batches item_lists done,
      run_multithreads_returns (vectorize_sentence V v0 U cs ws) token_lists nb_processes ms /\
      make_batches ms batch_size = Ok batches /\ mapM (batch_items V F le N) batches = Ok item_lists /\
      batched_loop V F le N (2 * PADDED_SENT_LENGTH) batch_size (concat item_lists) = Ok done /\
      tags = map (fun i => p_tags (i_parse i)) done /\
      run_multithreads_returns (fun i : item V => build_tree (i_parse i)) done nb_processes trees.
  (** pipeline/pipeline.py:36-65 [__call__] and 79-83 [__process_tokens] *)
  Definition full_returns (nb_cores batch_size : Z) (texts : list str) (chunk_common_nouns : bool) (docs : list document) : Prop :=
    exists sents groups tags trees node_dicts stuple_lists,
      run_multithreads_returns sentencize texts nb_cores sents /\
      run_multithreads_returns (fun token_lists => Ok (split_tokens token_lists)) sents nb_cores groups /\
      batched_returns nb_cores batch_size (concat groups) tags trees /\
      logic_returns U P L leL zero ninf m lx nouns (concat groups) tags trees chunk_common_nouns nb_cores node_dicts stuple_lists /\
      docs = regroup (sent_ranges groups) stuple_lists.
  (** the same as a function, with the values that the parallel maps compute *)
  Definition full_call (nb_cores batch_size : Z) (texts : list str) (chunk_common_nouns : bool) : res (list document) :=
    let! tokens := run_multithreads sentencize texts nb_cores in
    let! tokens := run_multithreads (fun token_lists => Ok (split_tokens token_lists)) tokens nb_cores in
    let ranges := sent_ranges tokens in
    let tokens := concat tokens in
    let! (tags, trees) := batched_call V F v0 U le N cs ws nb_cores batch_size tokens in
    let! (_, stuple_lists) := logic_process_all U P L leL zero ninf (lm_tokenize U) m lx nouns tokens tags trees chunk_common_nouns nb_cores in
    Ok (regroup ranges stuple_lists).
End Full.
