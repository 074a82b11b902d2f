(** Model of the views of a labelled sentence: scrappybara/syntax/labelled_data.py:89-102. *)
From Coq Require Import Ascii String.
From Coq Require Import List NArith ZArith Arith Bool.
From Verif Require Import PyBase MTree MLabelled.
Import ListNotations.
Local Open Scope nat_scope.

(** syntax/labelled_data.py:89-93 [__str__] and [__repr__] *)
Definition l_str (l : labelled) : str := join (lit " ") (l_tokens l).
(** syntax/labelled_data.py:95-96 [__len__] *)
Definition l_len (l : labelled) : nat := length (l_tokens l).
(** syntax/labelled_data.py:98-99 [__getitem__], for an integer; slices are not modelled *)
Definition l_getitem (l : labelled) (item : Z) : res str := index (l_tokens l) item.
(** syntax/labelled_data.py:101-102 [__iter__]: the items in the order of the iteration *)
Definition l_iter (l : labelled) : list str := l_tokens l.
