(** Specification vocabulary for text files. *)
From Coq Require Import Ascii String.
From Coq Require Import List NArith Arith Bool.
From Verif Require Import PyBase Regex.
Import ListNotations.

(** LF, CR LF or CR *)
Definition newline (s : str) : Prop := s = [10%N] \/ s = [13%N; 10%N] \/ s = [13%N].
Definition one_line (l : str) : Prop := ~ In 10%N l /\ ~ In 13%N l.
(** [text_file ls content]: the lines of the file are [ls]. What follows the last newline is a line unless it is empty. *)
Inductive text_file : list str -> str -> Prop :=
| file_empty : text_file [] []
| file_last : forall l, l <> [] -> one_line l -> text_file [l] l
| file_line : forall l nl ls s, one_line l -> newline nl -> (nl = [13%N] -> forall s', s <> 10%N :: s') ->
    text_file ls s -> text_file (l :: ls) (l ++ nl ++ s).

Section Lines.
  Context (U : udb).
  Definition blank (s : str) : Prop := Forall (fun c => u_space U c = true) s.
  (** [x] is [line] without the whitespace at both ends *)
  Definition trimmed (line x : str) : Prop :=
    exists a b, line = a ++ x ++ b /\ blank a /\ blank b /\
      (forall c x', x = c :: x' -> u_space U c = false) /\ (forall c x', x = x' ++ [c] -> u_space U c = false).
  (** a line of two columns separated by a tab *)
  Definition two_columns (line key value : str) : Prop :=
    ~ In 9%N key /\ ~ In 9%N value /\ trimmed line (key ++ 9%N :: value).
  (** the file has a line with these two columns *)
  Definition listed (content key value : str) : Prop :=
    exists ls line, text_file ls content /\ In line ls /\ two_columns line key value.
  (** the words of a line: separated by whitespace *)
  Inductive line_words : str -> list str -> Prop :=
  | words_none : forall s, blank s -> line_words s []
  | words_last : forall a w, blank a -> w <> [] -> Forall (fun c => u_space U c = false) w -> line_words (a ++ w) [w]
  | words_more : forall a w c s ws, blank a -> w <> [] -> Forall (fun c => u_space U c = false) w -> u_space U c = true ->
      line_words s ws -> line_words (a ++ w ++ c :: s) (w :: ws).
End Lines.

Section Vectors.
  Context (U : udb) (V : Type) (float32 : str -> res V) (has_ngram : str -> bool).
  (** the line gives a word of the language model the vector of its numbers *)
  Definition vector_line (line word : str) (vector : list V) : Prop :=
    exists nums, line_words U line (word :: nums) /\ has_ngram word = true /\ Forall2 (fun n v => float32 n = Ok v) nums vector.
  (** the line is about a word that the language model does not know *)
  Definition other_line (line : str) : Prop := exists word nums, line_words U line (word :: nums) /\ has_ngram word = false.
End Vectors.
