(** Specification vocabulary for the language model layer (C43-C58). *)
From Coq Require Import Ascii String.
From Coq Require Import List NArith ZArith QArith Qminmax Arith Bool Permutation Sorted.
From Verif Require Import PyBase Regex SUtils.
Import ListNotations.
Local Open Scope nat_scope.

(** The windows of [n >= 1] consecutive items, from left to right. *)
Definition windows {A} (n : nat) (l : list A) : list (list A) :=
  map (fun i => firstn n (skipn i l)) (seq 0 (length l + 1 - n)).
(** The number of occurrences of a string. *)
Definition occurrences (x : str) (l : list str) : nat := length (filter (str_eqb x) l).

(** A word that may be part of an ngram: ASCII letters, the first one in lower case; or the word I. *)
Definition is_letter_b (c : char) : bool := ((97 <=? c) && (c <=? 122) || ((65 <=? c) && (c <=? 90)))%N.
Definition ngram_word (w : str) : bool :=
  str_eqb w (lit "I") ||
  match w with [] => false | c :: _ => forallb is_letter_b w && negb ((65 <=? c) && (c <=? 90))%N end.
(** The ngrams of [n] words of a sentence, in lower case. *)
Definition ngrams_in (U : udb) (n : nat) (sentence : list str) : list (list str) :=
  map (map (lower U)) (filter (forallb ngram_word) (windows n sentence)).
(** The ngrams of [n] words of a list of sentences, one for each occurrence. *)
Definition ngrams_of (U : udb) (n : nat) (sentences : list (list str)) : list (list str) := flat_map (ngrams_in U n) sentences.
Definition spaced (words : list str) : str := join (lit " ") words.
(** All texts of ngrams of 1 to [max_order] words, in the order in which the builder meets them: text by text, and
    for each text order by order. *)
Definition all_ngrams (U : udb) (max_order : nat) (texts : list (list (list str))) : list str :=
  flat_map (fun text => flat_map (fun n => map spaced (ngrams_of U n text)) (seq 1 max_order)) texts.

(** ** Statistics of a corpus, a list of sentences *)
Section Corpus.
  Context (U : udb) (sentences : list (list str)).
  Definition words_eqb : list str -> list str -> bool := list_eqb str_eqb.
  (** number of occurrences of an ngram *)
  Definition cnt (g : list str) : nat := length (filter (words_eqb g) (ngrams_of U (length g) sentences)).
  (** the distinct ngrams of [n] words *)
  Definition types (n : nat) : list (list str) := firsts words_eqb (ngrams_of U n sentences).
  (** how many distinct ngrams of [n] words satisfy a condition *)
  Definition how_many (n : nat) (p : list str -> bool) : nat := length (filter p (types n)).
  (** number of ngrams of [n] words that occur exactly [r] times *)
  Definition with_count (n r : nat) : nat := how_many n (fun g => cnt g =? r).
  (** number of distinct words that precede [g] *)
  Definition preceding (g : list str) : nat := how_many (S (length g)) (fun h => words_eqb (tl h) g).
  (** number of distinct pairs of words around [g] *)
  Definition around (g : list str) : nat := how_many (S (S (length g))) (fun h => words_eqb (removelast (tl h)) g).
  (** number of distinct words that follow [g] such that the whole has a count with property [p] *)
  Definition following (g : list str) (p : nat -> bool) : nat :=
    how_many (S (length g)) (fun h => words_eqb (removelast h) g && p (cnt h)).

  Local Open Scope Q_scope.
  Definition Qnat (n : nat) : Q := inject_Z (Z.of_nat n).
  (** the discounts of an order (Chen and Goodman) *)
  Definition Y (n : nat) : Q := Qnat (with_count n 1) / (Qnat (with_count n 1) + 2 * Qnat (with_count n 2)).
  Definition D1 (n : nat) : Q := 1 - 2 * Y n * Qnat (with_count n 2) / Qnat (with_count n 1).
  Definition D2 (n : nat) : Q := 2 - 3 * Y n * Qnat (with_count n 3) / Qnat (with_count n 2).
  Definition D3 (n : nat) : Q := 3 - 4 * Y n * Qnat (with_count n 4) / Qnat (with_count n 3).
  (** the discount of a count *)
  Definition D (n count : nat) : Q := match count with O => 0 | 1%nat => D1 n | 2%nat => D2 n | _ => D3 n end.
  (** the mass left to lower orders after [h] *)
  Definition left_over (h : list str) : Q :=
    let n := S (length h) in
    Qnat (following h (Nat.eqb 1)) * D1 n + Qnat (following h (Nat.eqb 2)) * D2 n + Qnat (following h (Nat.leb 3)) * D3 n.
  (** the lower orders: continuation counts *)
  Fixpoint lower_kn (n : nat) (g : list str) : Q :=
    match n with
    | O | 1%nat => Qnat (preceding g) / Qnat (length (types 2))
    | S n' =>
      Qmax (Qnat (preceding g) - D (S n) (preceding g)) 0 / Qnat (around (removelast g)) +
      left_over (removelast g) / Qnat (around (removelast g)) * lower_kn n' (tl g)
    end.
  (** the interpolated value of an ngram *)
  Definition kneser_ney (g : list str) : Q :=
    match g with
    | [] => 0
    | [w] => lower_kn 1 [w]
    | _ =>
      Qmax (Qnat (cnt g) - D (length g) (cnt g)) 0 / Qnat (cnt (removelast g)) +
      left_over (removelast g) / Qnat (cnt (removelast g)) * lower_kn (length g - 1) (tl g)
    end.
End Corpus.
(** Sum of a list of rationals *)
Definition qsum_list (l : list Q) : Q := fold_right Qplus 0%Q l.

(** ** Files of ngrams *)
(** The text and the count of a line: text, tabulation, count, tabulation, probability. *)
Definition line_entry (U : udb) (line : str) : option (str * Z) :=
  match split_chr 9%N line with
  | [text; count; _] => match int_of_str (u_space U) count with Ok c => Some (text, c) | Err _ => None end
  | _ => None
  end.
(** The entries of the files whose count is at least the minimum of their order, in the order of reading. *)
Definition entries (U : udb) (min_counts : list Z) (files : list (list str)) : list (str * Z) :=
  flat_map (fun '(min_count, lines) =>
    flat_map (fun line => match line_entry U line with
                          | Some (text, c) => if (min_count <=? c)%Z then [(text, c)] else []
                          | None => []
                          end) lines) (combine min_counts files).
(** The last element of a list. *)
Fixpoint last_of {A} (l : list A) : option A :=
  match l with [] => None | [x] => Some x | _ :: l' => last_of l' end.
(** The windows of [n] consecutive items of [l] that include the position [p], from left to right. *)
Definition windows_at {A} (n p : nat) (l : list A) : list (list A) :=
  map (fun i => firstn n (skipn i l)) (filter (fun i => (i <=? p) && (p <? i + n)) (seq 0 (length l + 1 - n))).
(** Lexicographic order of lists of the same length, for a total order. *)
Inductive lex_le {L} (le : L -> L -> bool) : list L -> list L -> Prop :=
| lex_nil : lex_le le [] []
| lex_lt a b x y : le b a = false -> length x = length y -> lex_le le (a :: x) (b :: y)
| lex_eq a x y : lex_le le x y -> lex_le le (a :: x) (a :: y).
Definition total_order {L} (le : L -> L -> bool) : Prop :=
  (forall a b, le a b = true \/ le b a = true) /\ (forall a b c, le a b = true -> le b c = true -> le a c = true).
Definition antisym {L} (le : L -> L -> bool) : Prop := forall a b, le a b = true -> le b a = true -> a = b.
(** [l] is [items] in decreasing order of [key]. *)
Definition by_decreasing {A P} (le : P -> P -> bool) (key : A -> P) (items l : list A) : Prop :=
  Permutation items l /\ StronglySorted (fun x y => le (key y) (key x) = true) l.
(** Cut at a limit; no limit: everything. *)
Definition cut {A} (limit : option nat) (l : list A) : list A := match limit with Some k => firstn k l | None => l end.
(** [s] is the best value of some candidates, minus infinity if there is none. *)
Definition best_of {L} (le : L -> L -> bool) (ninf : L) (value : str -> L) (candidates : list str) (s : L) : Prop :=
  candidates = [] /\ s = ninf \/
  exists c, In c candidates /\ s = value c /\ forall c', In c' candidates -> le (value c') s = true.
(** The scores of a token: its best value for each order from the highest one down to 2, then its own value.
    [cands n c] says that [c] are the candidates of order [n]. *)
Definition token_scores {L} (le : L -> L -> bool) (ninf : L) (value : str -> L) (cands : nat -> list str -> Prop)
    (max_order : nat) (token : str) (scores : list L) : Prop :=
  exists higher, scores = higher ++ [value token] /\
    Forall2 (fun n s => exists c, cands n c /\ best_of le ninf value c s) (rev (seq 2 (max_order - 1))) higher.
