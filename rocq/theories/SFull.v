(** Specification vocabulary for calls of the pipeline on texts some of which cannot be cut into sentences. *)
From Coq Require Import List Bool.
From Verif Require Import PyBase Regex.
Import ListNotations.

Section Kept.
  Context (sentencize : str -> res (list (list str))).
  (** a text that can be cut into sentences *)
  Definition readable (text : str) : bool := match sentencize text with Ok _ => true | Err _ => false end.
  (** the texts of the shares, one for each core, in which all texts can be cut into sentences *)
  Definition kept (shares : list (list str)) : list str := concat (filter (forallb readable) shares).
End Kept.
