(** Model of scrappybara/langmodel/language_model_builder.py and of the decimal numbers of the ngram files. *)
From Coq Require Import Ascii String.
From Coq Require Import List NArith ZArith QArith Qround Arith Bool.
From Verif Require Import PyBase Regex MUtils MNgram MSmooth.
Import ListNotations.
Local Open Scope nat_scope.

(** * Decimal numbers *)
(** The nearest integer, ties to even *)
Definition round_half_even (q : Q) : Z :=
  let f := Qfloor q in
  match ((q - inject_Z f) ?= 1 # 2)%Q with
  | Lt => f
  | Gt => (f + 1)%Z
  | Eq => if Z.even f then f else (f + 1)%Z
  end.
Definition ten17 : Z := 100000000000000000.
(** the last [n] decimal digits of [z], most significant first *)
Fixpoint digits_pad (n : nat) (z : Z) : str :=
  match n with O => [] | S n' => digits_pad n' (z / 10)%Z ++ [(48 + Z.to_N (z mod 10))%N] end.
(** decimal digits of a non-negative integer; the fuel bounds the number of digits *)
Fixpoint digits_Z (fuel : nat) (z : Z) : str :=
  match fuel with
  | O => []
  | S f => if (z <? 10)%Z then [(48 + Z.to_N z)%N] else digits_Z f (z / 10)%Z ++ [(48 + Z.to_N (z mod 10))%N]
  end.
(** '%.17f' of a number that is not negative (only positive probabilities are written) *)
Definition fmt17 (q : Q) : str :=
  let r := round_half_even (q * inject_Z ten17) in
  digits_Z (S (Z.to_nat (Z.log2_up (r / ten17 + 1)))) (r / ten17)%Z ++ lit "." ++ digits_pad 17 (r mod ten17)%Z.

(** float() of digits, a dot and digits, surrounded by whitespace. Other notations (signs, exponents, inf, nan,
    underscores) are not modelled, nor is the rounding of the decimal number to binary64. *)
Fixpoint digits_val (s : str) (acc : Z) : option Z :=
  match s with
  | [] => Some acc
  | c :: s' => match digit_val c with Some d => digits_val s' (acc * 10 + d)%Z | None => None end
  end.
Definition float_of_str (sp : char -> bool) (s : str) : res Q :=
  match split_chr 46%N (strip sp s) with
  | [a; b] =>
    match a, b with
    | _ :: _, _ :: _ =>
      match digits_val a 0, digits_val b 0 with
      | Some x, Some y => Ok (inject_Z x + inject_Z y / inject_Z (10 ^ Z.of_nat (length b)))%Q
      | _, _ => Err ValueError
      end
    | _, _ => Err ValueError
    end
  | _ => Err ValueError
  end.

(** * language_model_builder.py *)
Section Builder.
  Context (U : udb).
  (** [sentencize] is the Sentencizer *)
  Context (sentencize : str -> res (list (list str))).

  (** language_model_builder.py:54-57 *)
  Definition add_text (max_order : nat) (s : store) (text_tokens : list (list str)) : res store :=
    foldM (fun s n =>
        let! ngrams := extract_ngrams U text_tokens n in
        Ok (fold_left make_ngram ngrams s)) s (seq 1 max_order).
  (** language_model_builder.py:43-58: the loop over batches. The iterator is the list of the texts to come. pool.map
      is map; it raises what a worker raises. The fuel bounds the number of batches. *)
  Fixpoint count_loop (fuel : nat) (nb_processes max_order : nat) (s : store) (texts : list str) : res store :=
    match fuel with
    | O => Err OutOfFuel
    | S f =>
      let batch := firstn nb_processes texts in
      let consumed := length batch <? nb_processes in
      let! texts_tokens := mapM sentencize batch in
      let! s := foldM (add_text max_order) s texts_tokens in
      if consumed then Ok s else count_loop f nb_processes max_order s (skipn nb_processes texts)
    end.
  Definition build_store (nb_processes max_order : nat) (texts : list str) : res store :=
    count_loop (S (length texts)) nb_processes max_order [] texts.

  Inductive smoothing := MKN | MLE.
  (** language_model_builder.py:68-73 [__write_ngram_file]: the content of the file. Comparing a probability that was not
      computed (None) raises TypeError. sorted(reverse=True) with __gt__ on probabilities. *)
  Definition get_proba (n : ngram) : res Q := of_option TypeError (ng_proba n).
  Definition write_ngram_file (ngrams : list ngram) : res str :=
    let! ps := mapM (fun n => let! p := get_proba n in Ok (n, p)) ngrams in
    let sorted := isort (fun x y => Qle_bool (snd y) (snd x)) ps in
    Ok (flat_map (fun '(n, p) =>
          if negb (Qle_bool p 0)
          then ng_text n ++ [9%N] ++ str_of_nat (ng_count n) ++ [9%N] ++ fmt17 p ++ [10%N] else []) sorted).
  (** language_model_builder.py:22-34 [__init__] and 36-66 [__call__]: the files written, by order *)
  Definition builder (max_order : nat) (sm : smoothing) (nb_processes : nat) (texts : list str) : res (list str) :=
    match sm with
    | MKN => if max_order <? 2 then Err MKNMinOrderError else
        let! s := build_store nb_processes max_order texts in
        let! d := mkn_smoother U (store_ngrams s) max_order (Z.of_nat nb_processes) in
        mapM (fun n => write_ngram_file (get_order_or_nil d n)) (seq 1 max_order)
    | MLE =>
        let! s := build_store nb_processes max_order texts in
        let! d := mle_smoother U (store_ngrams s) max_order (Z.of_nat nb_processes) in
        mapM (fun n => write_ngram_file (get_order_or_nil d n)) (seq 1 max_order)
    end.
  (** Iterating over a text file: the lines, each with its end of line. Translation of other line ends is not
      modelled. *)
  Definition file_lines (content : str) : list str :=
    let parts := split_chr 10%N content in
    map (fun l => l ++ [10%N]) (removelast parts) ++ match last parts [] with [] => [] | l => [l] end.
End Builder.
