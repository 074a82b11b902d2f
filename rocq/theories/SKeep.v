(** Specification vocabulary: what the tokens of a text spell. *)
From Coq Require Import Ascii String.
From Coq Require Import List NArith Bool.
From Verif Require Import PyBase Regex STok.
Import ListNotations.

(** a text without paragraph marks; 182 is the code of the paragraph mark *)
Definition unmarked (s : str) : str := filter (fun c => negb (N.eqb c 182)) s.
(** what is written in a text: its visible characters without paragraph marks, with straight quotes, and a hyphen instead of each
    run of dashes *)
Definition written (U : udb) (text : str) : str := unmarked (visible U (one_dash (map straight text))).
