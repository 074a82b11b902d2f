(** Model of scrappybara/pipeline: pipeline.py, document.py, sentence.py. *)
From Coq Require Import Ascii String.
From Coq Require Import List NArith ZArith Arith Bool.
From Verif Require Import PyBase Regex MUtils MTree MVector MParser MNgram MLangModel MNormal MNode MSem MTokenizer.
Import ListNotations.
Local Open Scope nat_scope.

(** pipeline/pipeline.py:21 [__splitters] *)
Definition splitters : list str := [[58]; [34]; [59]; [40]; [41]; [91]; [93]; [123]; [125]; [45]]%N.   (* colon, double quote, semicolon, round, square and curly brackets, hyphen *)
Definition is_splitter (token : str) : bool := existsb (str_eqb token) splitters.
(** itertools.groupby(l, key) with each group made a list: consecutive items of equal key *)
Fixpoint groupby {A} (key : A -> bool) (l : list A) : list (bool * list A) :=
  match l with
  | [] => []
  | x :: l' =>
    match groupby key l' with
    | (b, g) :: r => if Bool.eqb (key x) b then (b, x :: g) :: r else (key x, [x]) :: (b, g) :: r
    | [] => [(key x, [x])]
    end
  end.
(** pipeline/pipeline.py:67-77 [__split_tokens] *)
Definition split_tokens (token_lists : list (list str)) : list (list str) :=
  let new_token_lists :=
    fold_left (fun new tokens =>
      if MAX_SENT_LENGTH <? length tokens
      then new ++ map snd (filter (fun '(b, _) => negb b) (groupby is_splitter tokens))
      else new ++ [tokens]) token_lists [] in
  filter (fun tokens => length tokens <=? MAX_SENT_LENGTH) new_token_lists.
(** pipeline/pipeline.py:41-47: the ranges of the sentences of each text *)
Definition sent_ranges (groups : list (list (list str))) : list (nat * nat) :=
  fst (fold_left (fun '(ranges, total) token_lists =>
    let new_total := total + length token_lists in (ranges ++ [(total, new_total)], new_total)) groups ([], 0)).
(** pipeline/document.py:1-13, sentence.py:1-8: a document is the list of its sentences, a sentence the list of its tuples *)
Definition sentence := list stuple.
Definition document := list sentence.
Definition doc_stuples (d : document) : list stuple := flat_map (fun s => s) d.
(** l[start:end] for 0 <= start <= end *)
Definition range {A} (l : list A) (start stop : nat) : list A := slice (Some (Z.of_nat start)) (Some (Z.of_nat stop)) l.
(** pipeline/pipeline.py:57-65 *)
Definition regroup (ranges : list (nat * nat)) (stuple_lists : list (list stuple)) : list document :=
  map (fun '(start, stop) => range stuple_lists start stop) ranges.

(** The tokenizer given to the language model (language_model.py:21), called with a string or with None; tokenizer.py:163-164 *)
Definition lm_tokenize (U : udb) (text : option str) : res (list str) :=
  match text with None => Ok [[]] | Some s => tokenize U s end.

Section Pipeline.
  Context (V : Type) (v0 : V) (U : udb) (M : models V) (cs : charset) (ws : wordset V).
  Context (P L : Type) (leL : L -> L -> bool) (zero : P) (ninf : L) (m : lm P L) (lx : lexicon) (nouns : list str).
  (** the sentencizer is an argument of the constructor (pipeline.py:23) *)
  Context (sentencize : str -> res (list (list str))).
  Notation logic := (logic_process U P L leL zero ninf (lm_tokenize U) m lx nouns).
  Notation vectorize := (vectorize_sentence V v0 U cs ws).

  (** pipeline/pipeline.py:36-65 [__call__] and 79-83 [__process_tokens], with the values that the parallel maps compute. *)
  Definition pipeline_call (nb_cores batch_size : Z) (texts : list str) (chunk_common_nouns : bool) : res (list document) :=
    let! tokens := run_multithreads sentencize texts nb_cores in
    let! tokens := run_multithreads (fun token_lists => Ok (split_tokens token_lists)) tokens nb_cores in
    let ranges := sent_ranges tokens in
    let tokens := concat tokens in
    let! (tags, trees) := parser_call V v0 U M cs ws nb_cores batch_size tokens in
    let! (_, stuple_lists) := logic_process_all U P L leL zero ninf (lm_tokenize U) m lx nouns tokens tags trees chunk_common_nouns nb_cores in
    Ok (regroup ranges stuple_lists).

  (** The same code where every parallel map is any execution of its threads: [parser_returns] is syntax/parser.py:108-130,
      [logic_returns] logic_pipeline.py:43-52, [pipeline_returns] pipeline.py:36-65. *)
  Definition parser_returns (nb_processes batch_size : Z) (token_lists : list (list str)) (tags : list (list tag)) (trees : list (option tree)) : Prop :=
    exists ms batches item_lists done,
      run_multithreads_returns vectorize token_lists nb_processes ms /\
      make_batches ms batch_size = Ok batches /\ mapM (mapM (make_item V M)) batches = Ok item_lists /\
      transition_loop V M (2 * PADDED_SENT_LENGTH) batch_size (concat item_lists) = Ok done /\
      tags = map (fun i => p_tags (i_parse i)) done /\
      run_multithreads_returns (fun i : item V => build_tree (i_parse i)) done nb_processes trees.
  Definition logic_returns (token_lists : list (list str)) (tags : list (list tag)) (trees : list (option tree)) (chunk_common_nouns : bool)
      (nb_processes : Z) (node_dicts : list (dict nat nat)) (stuples : list (list stuple)) : Prop :=
    exists results, run_multithreads_returns (fun '(tokens, tags, tree) =>
        let! (_, _, d, s) := logic tokens tags tree chunk_common_nouns in Ok (d, s)) (zip3 token_lists tags trees) nb_processes results /\
      node_dicts = map fst results /\ stuples = map snd results.
  Definition pipeline_returns (nb_cores batch_size : Z) (texts : list str) (chunk_common_nouns : bool) (docs : list document) : Prop :=
    exists sents groups tags trees node_dicts stuple_lists,
      run_multithreads_returns sentencize texts nb_cores sents /\
      run_multithreads_returns (fun token_lists => Ok (split_tokens token_lists)) sents nb_cores groups /\
      parser_returns nb_cores batch_size (concat groups) tags trees /\
      logic_returns (concat groups) tags trees chunk_common_nouns nb_cores node_dicts stuple_lists /\
      docs = regroup (sent_ranges groups) stuple_lists.
End Pipeline.
