(** Specification vocabulary for the vectorization of sentences. *)
From Coq Require Import List NArith Arith.
From Verif Require Import PyBase MVector.
Import ListNotations.

(** The last [k] elements. *)
Definition lastn {A} (k : nat) (l : list A) : list A := skipn (length l - k) l.
(** What a row of 22 codes must be for a word: opening delimiter, last 20 characters, closing delimiter,
    zeros. [code] is the code of a character. *)
Definition row_spec (code : char -> nat) (word : str) : list nat :=
  code 8224%N :: map code (lastn 20 word) ++ code 8225%N :: repeat 0 (20 - length (lastn 20 word)).
(** word vectors have 100 components *)
Definition ws_ok (V : Type) (ws : wordset V) : Prop := forall w v, In (w, v) ws -> length v = WORD_VECTOR_SIZE.
(** a charset whose codes are 0..n-1 *)
Definition charset_ok (cs : charset) : Prop := cs <> [] /\ forall c n, In (c, n) cs -> n < length cs.
(** no two characters share a code *)
Definition codes_inj (cs : charset) : Prop := forall c c' n, In (c, n) cs -> In (c', n) cs -> c = c'.
