(** Model of scrappybara/utils/files.py:38-47 (word lists in text files), of the loading of the word lists by
    scrappybara/pipeline/logic_pipeline.py:22-33 and of scrappybara/syntax/wordset.py:28-39. A file is its decoded content:
    paths, encodings and pickles (files.py:6-35) are not modelled. *)
From Coq Require Import Ascii String.
From Coq Require Import List NArith ZArith Arith Bool.
From Verif Require Import PyBase Regex MUtils MTree MVector MNormal.
Import ListNotations.
Local Open Scope nat_scope.

(** open() in text mode (files.py:18-20, wordset.py:32): CR LF and CR are read as LF *)
Fixpoint newlines (s : str) : str :=
  match s with
  | [] => []
  | c :: s' =>
    if N.eqb c 13 then
      match s' with
      | d :: s'' => if N.eqb d 10 then 10%N :: newlines s'' else 10%N :: newlines s'
      | [] => [10%N]
      end
    else c :: newlines s'
  end.
(** for line in txt_file: each line with its end *)
Fixpoint lines (s : str) : list str :=
  match s with
  | [] => []
  | c :: s' =>
    if N.eqb c 10 then [c] :: lines s'
    else match lines s' with [] => [[c]] | l :: ls => (c :: l) :: ls end
  end.
Definition file_lines (content : str) : list str := lines (newlines content).

Section Files.
  Context (U : udb).

  (** utils/files.py:38-41 [load_set_from_txt_file]: a set is the list of its elements in the order they were added *)
  Definition load_set_from_txt_file (content : str) : list str :=
    fold_left (fun s line => let x := strip (u_space U) line in if str_in x s then s else s ++ [x]) (file_lines content) [].
  (** key, value = l (files.py:47): ValueError unless there are two elements *)
  Definition unpack_pair (l : list str) : res (str * str) :=
    match l with [key; value] => Ok (key, value) | _ => Err ValueError end.
  (** utils/files.py:44-47 [load_dict_from_txt_file]; 9 is the tab *)
  Definition load_dict_from_txt_file (content : str) : res (dict str str) :=
    let rows := map (fun line => split_chr 9%N (strip (u_space U) line)) (file_lines content) in
    let! pairs := mapM unpack_pair rows in
    Ok (fold_left (fun d '(key, value) => dset str_eqb key value d) pairs []).

  (** The files of the folder data/english that a LogicPipeline loads *)
  Record english_files := {
    f_preterits : str; f_past_participles : str; f_plurals : str; f_comparatives : str; f_superlatives : str;
    f_nouns : str; f_adjectives : str
  }.
  (** pipeline/logic_pipeline.py:22-33: the word lists of the lemmatizer, the fixer and the inflector *)
  Definition load_english (f : english_files) : res (lexicon * list str) :=
    let! preterits := load_dict_from_txt_file (f_preterits f) in
    let! pps := load_dict_from_txt_file (f_past_participles f) in
    let! plurals := load_dict_from_txt_file (f_plurals f) in
    let! comparatives := load_dict_from_txt_file (f_comparatives f) in
    let! superlatives := load_dict_from_txt_file (f_superlatives f) in
    let nouns := load_set_from_txt_file (f_nouns f) in
    let adjs := load_set_from_txt_file (f_adjectives f) in
    let reversed_pps := reverse_dict str_eqb pps in
    Ok ({| lx_adjs := adjs; lx_preterit := preterits; lx_pp := pps; lx_plural := plurals; lx_comparative := comparatives;
           lx_superlative := superlatives; lx_lemma_pp := reversed_pps; lx_prefixes := PREFIXES |}, nouns).

  (** syntax/wordset.py:28-39 [save], up to the writing of the pickle. [float32] reads a number as np.asarray does,
      [has_ngram] is that of the language model. A blank line raises IndexError at values[0]. *)
  Context (V : Type) (float32 : str -> res V) (has_ngram : str -> bool).
  Definition wordset_save (content : str) : res (wordset V) :=
    foldM (fun word_vector line =>
      let values := split_ws (u_space U) line in
      let! word := index values 0 in
      let wordvec := slice (Some 1%Z) None values in
      if has_ngram word
      then let! vector := mapM float32 wordvec in Ok (dset str_eqb word vector word_vector)
      else Ok word_vector) [] (file_lines content).
  (** syntax/wordset.py:14-15 *)
  Definition wordset_len (ws : wordset V) : nat := length ws + 1.
End Files.
