(** Model of scrappybara/langmodel/language_model.py. *)
From Coq Require Import Ascii String.
From Coq Require Import List NArith ZArith Arith Bool.
From Verif Require Import PyBase Regex MUtils MNgram.
Import ListNotations.
Local Open Scope nat_scope.

Section LM.
  (** Python's floats: probabilities [P] and log-probabilities [L] are any types with a total order [leP], [leL];
      [zero] is 0.0 and [ninf] is float('-inf'); [float_of_str] is float() on a string, [log] is math.log, which raises
      ValueError on 0.0 and below. NaN is not modelled. [tokenize] is the Tokenizer, on a string or None. *)
  Context (U : udb) (P L : Type) (leP : P -> P -> bool) (leL : L -> L -> bool) (zero : P) (ninf : L)
          (float_of_str : str -> res P) (log : P -> res L) (tokenize : option str -> res (list str)).

  (** language_model.py:18: count, probability, log-probability *)
  Record details := { d_count : Z; d_proba : P; d_logp : L }.
  Record lm := { lm_max_order : nat; lm_details : dict str details; lm_next : dict str (list (str * P)) }.
  (** language_model.py:19 [__unk] *)
  Definition unk : details := {| d_count := 0%Z; d_proba := zero; d_logp := ninf |}.

  (** language_model.py:25-29: one line of a file. Lines are given: reading the file is not modelled here. *)
  Definition load_line (min_count : Z) (d : dict str details) (line : str) : res (dict str details) :=
    match split_chr 9%N line with
    | [text; count; proba] =>
      let! count := int_of_str (u_space U) count in
      if (min_count <=? count)%Z then
        let! proba := float_of_str proba in
        let! lp := log proba in
        Ok (dset str_eqb text {| d_count := count; d_proba := proba; d_logp := lp |} d)
      else Ok d
    | _ => Err ValueError
    end.
  (** language_model.py:24-29: splitting the lines, done for all of them first, cannot raise *)
  Definition load_file (d : dict str details) (min_count : Z) (lines : list str) : res (dict str details) :=
    foldM (load_line min_count) d lines.
  (** language_model.py:33-36 *)
  Definition add_next (nx : dict str (list (str * P))) (e : str * details) : dict str (list (str * P)) :=
    let tokens := split_ws (u_space U) (fst e) in
    if 1 <? length tokens
    then match index tokens (-1) with
         | Ok t => append_to_dict_list str_eqb nx (joinsp (slice None (Some (-1)%Z) tokens)) (t, d_proba (snd e))
         | Err _ => nx       (* unreachable: there are at least two tokens *)
         end
    else nx.
  (** sort(key=..., reverse=True) *)
  Definition sort_desc {A} (key : A -> P) (l : list A) : list A := isort (fun x y => leP (key y) (key x)) l.
  (** language_model.py:11-38 [__init__]; [files] gives, for each order, the lines of its file *)
  Definition load_lm (min_counts : list Z) (files : list (list str)) : res lm :=
    let! d := foldM (fun d '(mc, lines) => load_file d mc lines) [] (combine min_counts files) in
    let nx := if 1 <? length min_counts then fold_left add_next d [] else [] in
    Ok {| lm_max_order := length min_counts; lm_details := d;
          lm_next := map (fun '(k, l) => (k, sort_desc snd l)) nx |}.

  (** language_model.py:40-41 *)
  Definition lm_len (m : lm) : nat := length (lm_details m).
  (** language_model.py:43-44 *)
  Definition lm_contains (m : lm) (ngram : str) : bool := dmem str_eqb ngram (lm_details m).
  Definition lookup (m : lm) (ngram : str) : details :=
    match dget str_eqb ngram (lm_details m) with Some d => d | None => unk end.
  (** language_model.py:46-48 [__logp] *)
  Definition logp (m : lm) (ngram : str) : L := d_logp (lookup m ngram).
  (** max of a list: the first element that no later one exceeds; raises ValueError when empty *)
  Definition py_max {A} (le : A -> A -> bool) (l : list A) : res A :=
    match l with
    | [] => Err ValueError
    | x :: r => Ok (fold_left (fun m y => if le y m then m else y) r x)
    end.
  (** range(n, 1, -1) *)
  Definition down_to_2 (n : nat) : list nat := rev (seq 2 (n - 1)).
  (** language_model.py:50-62 [__logps] *)
  Definition logps (m : lm) (tc : token_context) : res (list L) :=
    let! l := mapM (fun i =>
        let! c := candidates tc i in
        match c with [] => Ok ninf | _ => py_max leL (map (logp m) c) end) (down_to_2 (lm_max_order m)) in
    Ok (l ++ [logp m (tc_token tc)]).
  (** language_model.py:64-70 [top_ngrams] *)
  Definition top_ngrams (m : lm) (order : nat) (limit : option Z) : list (str * Z * P) :=
    let ngrams := flat_map (fun '(ng, d) => if length (split_ws (u_space U) ng) =? order then [(ng, d_count d, d_proba d)] else []) (lm_details m) in
    slice None limit (sort_desc snd ngrams).
  (** language_model.py:72-79 [next_word]: range(max_order - 1, 0, -1) *)
  Fixpoint next_word_loop (m : lm) (tokens : list str) (limit : option Z) (i : nat) : list (str * P) :=
    match i with
    | O => []
    | S i' =>
      match dget str_eqb (joinsp (slice (Some (- Z.of_nat i)%Z) None tokens)) (lm_next m) with
      | Some l => slice None limit l
      | None => next_word_loop m tokens limit i'
      end
    end.
  Definition next_word (m : lm) (text : str) (limit : option Z) : res (list (str * P)) :=
    let! tokens := tokenize (Some text) in
    Ok (next_word_loop m tokens limit (lm_max_order m - 1)).

  (** Comparison of tuples of floats: lexicographic *)
  Fixpoint leT (x y : list L) : bool :=
    match x, y with
    | [], _ => true
    | _ :: _, [] => false
    | a :: x', b :: y' => if leL a b then (if leL b a then leT x' y' else true) else false
    end.
  Definition eqT (x y : list L) : bool := leT x y && leT y x.
  (** language_model.py:81-94 [best_token] *)
  Definition best_token (m : lm) (tokens : list str) (before after : option str) : res (option str) :=
    if existsb (lm_contains m) tokens then
      let! tokens_before := tokenize before in
      let! tokens_after := tokenize after in
      let! tprobas := foldM (fun d '(idx, t) =>
          let! k := logps m {| tc_token := t; tc_before := tokens_before; tc_after := tokens_after |} in
          Ok (dset eqT k idx d)) [] (enumerate tokens) in
      let! k := py_max leT (dkeys tprobas) in
      let! idx := of_option KeyError (dget eqT k tprobas) in
      let! t := index tokens (Z.of_nat idx) in
      Ok (Some t)
    else Ok None.
  (** language_model.py:96-104 [best_ngram] *)
  Definition best_ngram (m : lm) (ngrams : list str) : res (option str) :=
    if existsb (lm_contains m) ngrams then
      let l := isort (fun x y => leL (snd y) (snd x)) (map (fun ng => (ng, logp m ng)) ngrams) in
      let! x := index l 0 in
      Ok (Some (fst x))
    else Ok None.
  (** language_model.py:106-109 [has_ngram] *)
  Definition has_ngram (m : lm) (ngram : str) (min_count : Z) : bool :=
    if (min_count <? 1)%Z then false else (min_count <=? d_count (lookup m ngram))%Z.
End LM.
Arguments d_count {P L} d.
Arguments d_proba {P L} d.
Arguments d_logp {P L} d.
Arguments lm_max_order {P L} l.
Arguments lm_details {P L} l.
Arguments lm_next {P L} l.
