(** Model of scrappybara/syntax/training_samples.py, charset.py, wordset.py and tagger.py. *)
From Coq Require Import Ascii String.
From Coq Require Import List NArith ZArith Arith Bool.
From Verif Require Import PyBase Regex MUtils MTree.
Import ListNotations.
Local Open Scope nat_scope.

(** config.py:14-19 *)
Definition MAX_WORD_LENGTH : nat := 20.
Definition MAX_SENT_LENGTH : nat := 50.
Definition WORD_VECTOR_SIZE : nat := 100.
Definition PADDED_SENT_LENGTH : nat := MAX_SENT_LENGTH + 2.
Definition PADDED_WORD_LENGTH : nat := MAX_WORD_LENGTH + 2.

(** syntax/charset.py:5-28 [Charset], loaded: a dictionary of codes. Loading from a pickle is not
    modelled: the dictionary is given. *)
Definition charset := dict char nat.
(** syntax/charset.py:12-13 *)
Definition charset_len (cs : charset) : nat := length cs + 1.
(** syntax/charset.py:24: max of the codes, plus one (max of an empty dictionary would raise: here 1) *)
Definition unk_code (cs : charset) : nat := fold_right Nat.max 0 (dvalues cs) + 1.
(** syntax/charset.py:15-20 *)
Definition char_code (cs : charset) (c : char) : nat :=
  match dget N.eqb c cs with Some n => n | None => unk_code cs end.

(** syntax/charset.py:29-31: the characters of a saved charset *)
Definition CHARSET_CHARS : str :=
  LETTERS ++ UPPERCASE_LETTERS ++ lit "0123456789" ++
  [96; 126; 33; 64; 35; 36; 163; 8364; 37; 94; 38; 42; 40; 41; 45; 95; 61; 43; 91; 123; 93; 125; 92; 124; 59; 58; 39; 34;
   44; 60; 46; 62; 47; 63]%N ++ [8224; 8225; 643; 644]%N.
(** syntax/charset.py:26-33 [save]: [order] is the order in which the set of characters is iterated, which
    Python does not specify. Writing the file is not modelled. *)
Definition charset_save (order : list char) : charset := map (fun '(idx, c) => (c, idx)) (enumerate order).

(** syntax/training_samples.py:8-13 [_pad_array]. Overflow of int32 is not modelled (codes are small). *)
Definition pad_array (array : list nat) (dim : nat) : list nat :=
  let a := slice (Some (- Z.of_nat dim)%Z) None array in
  a ++ repeat 0 (dim - length a).
(** syntax/training_samples.py:16-22 [_fill_columns] *)
Definition fill_columns (matrix : list (list nat)) (dim : nat) : list (list nat) := map (fun a => pad_array a dim) matrix.
(** syntax/training_samples.py:25-30 [_pad_char_codes] *)
Definition pad_char_codes (matrix : list (list nat)) : list (list nat) :=
  let empty_arrays := fill_columns (repeat [] (PADDED_SENT_LENGTH - length matrix)) PADDED_WORD_LENGTH in
  let padded_arrays := fill_columns (slice None (Some (Z.of_nat PADDED_SENT_LENGTH)) matrix) PADDED_WORD_LENGTH in
  padded_arrays ++ empty_arrays.

(** syntax/training_samples.py:42-46 [_encode_chars]; 8224 and 8225 are the two word delimiters *)
Definition encode_chars (token : str) (cs : charset) : list nat :=
  let token := if MAX_WORD_LENGTH <? length token
               then slice (Some (Z.of_nat (length token) - Z.of_nat MAX_WORD_LENGTH)%Z) None token else token in
  map (char_code cs) ([8224%N] ++ token ++ [8225%N]).

(** syntax/training_samples.py:55-63 [make_masks]: assigning outside the list raises IndexError *)
Definition make_mask (idx : nat) : res (list bool) :=
  if idx <? PADDED_SENT_LENGTH
  then Ok (repeat false idx ++ [true] ++ repeat false (PADDED_SENT_LENGTH - idx - 1)) else Err IndexError.
Definition make_masks (idx_1 idx_2 : nat) : res (list bool * list bool) :=
  let! m1 := make_mask idx_1 in
  let! m2 := make_mask idx_2 in
  Ok (m1, m2).

Section Vectors.
  (** Components of word vectors; [v0] is 0.0. *)
  Context (V : Type) (v0 : V) (U : udb).

  (** syntax/wordset.py:7-22 [Wordset], loaded *)
  Definition wordset := dict str (list V).
  Definition word_vector (ws : wordset) (word : str) : list V :=
    match dget str_eqb (lower U word) ws with Some v => v | None => repeat v0 WORD_VECTOR_SIZE end.

  (** syntax/training_samples.py:33-39 [_pad_word_vectors]: matrix[0] raises IndexError when empty, assigning
      a row out of range too *)
  Definition pad_word_vectors (matrix : list (list V)) : res (list (list V)) :=
    let! first := index matrix 0 in
    if forallb (fun a => length a =? length first) matrix then
      if length matrix <=? PADDED_SENT_LENGTH
      then Ok (matrix ++ repeat (repeat v0 (length first)) (PADDED_SENT_LENGTH - length matrix))
      else Err IndexError
    else Err AssertionError.

  (** What vectorization returns: sequence length, character codes, word vectors *)
  Record mats := { m_length : nat; m_chars : list (list nat); m_words : list (list V) }.

  (** syntax/training_samples.py:66-73 [vectorize_sentence]; 643 and 644 are the characters of the two
      sentence delimiters *)
  Definition vectorize_sentence (cs : charset) (ws : wordset) (tokens : list str) : res mats :=
    if MAX_SENT_LENGTH <? length tokens then Err SentenceTooLongError
    else
      let tokens := [[643; 643; 643]%N] ++ tokens ++ [[644; 644; 644]%N] in
      let char_codes := pad_char_codes (map (fun t => encode_chars t cs) tokens) in
      let! word_vectors := pad_word_vectors (map (word_vector ws) tokens) in
      Ok {| m_length := length tokens; m_chars := char_codes; m_words := word_vectors |}.

  (** syntax/tagger.py:20-24 [tag]. [ptags] is the prediction of PTagsModel for one sentence, the codes of
      its 52 rows (syntax/models.py:96-98); a batch is predicted pointwise. zip( *[]) of no sentence
      raises ValueError (nothing to unpack). *)
  Definition tagger_tag (cs : charset) (ws : wordset) (ptags : list (list nat) -> list (list V) -> list nat)
      (token_lists : list (list str)) : res (list (list tag)) :=
    let! data := mapM (vectorize_sentence cs ws) token_lists in
    match data with
    | [] => Err ValueError
    | _ => mapM (fun d => mapM tag_of_code (slice (Some 1%Z) (Some (Z.of_nat (m_length d) + 1)%Z) (ptags (m_chars d) (m_words d)))) data
    end.
End Vectors.
Arguments m_length {V} m.
Arguments m_chars {V} m.
Arguments m_words {V} m.
