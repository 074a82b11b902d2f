(** Specification of the verbs whose past participle is not taken back to them (C96). *)
From Coq Require Import Ascii String.
From Coq Require Import List NArith Arith.
From Verif Require Import PyBase SNormal.
Import ListNotations.
Local Open Scope nat_scope.

(** ski, untie, click; programme *)
Definition lost (lemma : str) : Prop :=
  (exists stem c e, stem <> [] /\ consonant c /\ In e ["i"; "ie"; "ick"; "icke"]%string /\ lemma = stem ++ [c] ++ lit e) \/
  (exists stem v c, stem <> [] /\ vowel v /\ consonant c /\ lemma = stem ++ [v; c; c] ++ lit "e").
