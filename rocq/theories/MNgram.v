(** Model of scrappybara/langmodel: ngram.py, ngram_store.py, ngrams_extraction.py, token_context.py. *)
From Coq Require Import Ascii String.
From Coq Require Import List NArith ZArith QArith Arith Bool.
From Verif Require Import PyBase Regex MUtils.
Import ListNotations.
Local Open Scope nat_scope.

(** The wildcard character of the Kneser-Ney counts, U+2022 *)
Definition WC : str := [8226%N].
(** ' '.join *)
Definition joinsp (l : list str) : str := join (lit " ") l.
(** zip( *[items[i:] for i in range(n)]): tuples are made while no list is exhausted. Without any list
    nothing is yielded. *)
Fixpoint zip_lists (fuel : nat) (ls : list (list str)) : list (list str) :=
  match ls with
  | [] => []
  | _ =>
    match fuel with
    | O => []
    | S f =>
      if existsb (fun l => match l with [] => true | _ => false end) ls then []
      else flat_map (fun l => match l with [] => [] | x :: _ => [x] end) ls :: zip_lists f (map (@tl str) ls)
    end
  end.
(** The sliding window of ngrams_extraction.py:27 and token_context.py:9-11. The fuel is the number of items, which
    is the length of the first list. *)
Definition slide_window (items : list str) (window_size : nat) : list (list str) :=
  zip_lists (length items) (map (fun i => slice (Some (Z.of_nat i)) None items) (seq 0 window_size)).

(** * ngram.py *)
Section Ngram.
  Context (U : udb).
  (** langmodel/ngram.py:12-19 [Ngram]. The log-probability, set with the probability, is not kept.
      Probabilities are exact rationals: binary64 rounding is not modelled. *)
  Record ngram := { ng_text : str; ng_count : nat; ng_proba : option Q }.
  Definition new_ngram (text : str) : ngram := {| ng_text := text; ng_count := 1; ng_proba := None |}.
  (** ngram.py:16 *)
  Definition ng_tokens (n : ngram) : list str := split_ws (u_space U) (ng_text n).
  (** ngram.py:39-41 *)
  Definition ng_order (n : ngram) : nat := length (ng_tokens n).
  (** ngram.py:34-37 [proba.setter] *)
  Definition set_proba (n : ngram) (p : Q) : ngram := {| ng_text := ng_text n; ng_count := ng_count n; ng_proba := Some p |}.
  (** ngram.py:46-48 *)
  Definition last_token (n : ngram) : res str := index (ng_tokens n) (-1).
  (** ngram.py:50-53 *)
  Definition without_last_token (n : ngram) : res str :=
    if 1 <? ng_order n then Ok (joinsp (slice None (Some (-1)%Z) (ng_tokens n))) else Err AssertionError.
  (** ngram.py:55-58 *)
  Definition wc_last_token (n : ngram) : res str :=
    let! w := without_last_token n in Ok (joinsp [w; WC]).
  (** ngram.py:60-63 *)
  Definition prepend_wc (n : ngram) : str := joinsp [WC; ng_text n].
  (** ngram.py:65-69 *)
  Definition continuous_ngram (n : ngram) : res str :=
    let! w := wc_last_token n in Ok (joinsp [WC; w]).
  (** ngram.py:71-74 *)
  Definition lower_order (n : ngram) (order : nat) : res str :=
    if (0 <? order) && (order <? ng_order n)
    then Ok (joinsp (slice (Some (Z.of_nat (ng_order n) - Z.of_nat order)%Z) None (ng_tokens n)))
    else Err AssertionError.

  (** * ngram_store.py *)
  (** langmodel/ngram_store.py:4-25 [NgramStore]; the ngram returned by [make_ngram] is not used *)
  Definition store := dict str ngram.
  Definition make_ngram (s : store) (text : str) : store :=
    match dget str_eqb text s with
    | Some n => dset str_eqb text {| ng_text := ng_text n; ng_count := ng_count n + 1; ng_proba := ng_proba n |} s
    | None => dset str_eqb text (new_ngram text) s
    end.
  (** ngram_store.py:13-15 *)
  Definition store_ngrams (s : store) : list ngram := dvalues s.

  (** * ngrams_extraction.py *)
  (** langmodel/ngrams_extraction.py:4-13 [_valid_ngram_token] *)
  Definition valid_ngram_token (token : str) : res bool :=
    match token with
    | [] => Ok false
    | _ =>
      if str_eqb token (lit "I") then Ok true
      else let! up := starts_with_uppercase_letter token in
           Ok (negb (negb (has_only_letters U token) || up))
    end.
  (** ngrams_extraction.py:16-17 [_valid_tokens] *)
  Definition valid_tokens (tokens : list str) : res bool :=
    let! l := mapM valid_ngram_token tokens in Ok (forallb (fun b => b) l).
  (** filter by a predicate that may raise *)
  Fixpoint filterM {A} (f : A -> res bool) (l : list A) : res (list A) :=
    match l with
    | [] => Ok []
    | x :: l' => let! b := f x in let! r := filterM f l' in Ok (if b then x :: r else r)
    end.
  (** ngrams_extraction.py:20-30 [extract_ngrams] *)
  Definition extract_one (order : nat) (token_list : list str) : res (list str) :=
    let ngrams_tokens := if order =? 1 then map (fun t => [t]) token_list else slide_window token_list order in
    let! filtered := filterM valid_tokens ngrams_tokens in
    Ok (map (fun ts => lower U (joinsp ts)) filtered).
  Definition extract_ngrams (token_lists : list (list str)) (order : nat) : res (list str) :=
    let! l := mapM (extract_one order) token_lists in Ok (concat l).
End Ngram.

(** * token_context.py *)
(** langmodel/token_context.py:4-7 [TokenContext] *)
Record token_context := { tc_token : str; tc_before : list str; tc_after : list str }.
(** token_context.py:13-19 *)
Definition left_ngram (tc : token_context) : list str := tc_before tc ++ [tc_token tc].
Definition right_ngram (tc : token_context) : list str := tc_token tc :: tc_after tc.
(** token_context.py:21-28 [candidates] *)
Definition candidates (tc : token_context) (order : nat) : res (list str) :=
  if 1 <? order then
    let r := order - 1 in
    let before := slice (Some (Z.of_nat (length (tc_before tc)) - Z.of_nat r)%Z) None (tc_before tc) in
    let after := slice None (Some (Z.of_nat r)) (tc_after tc) in
    Ok (map joinsp (slide_window (before ++ [tc_token tc] ++ after) order))
  else Err AssertionError.
