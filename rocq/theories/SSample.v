(** Specification vocabulary for labelled sentences given to the logic. *)
From Coq Require Import List ZArith Arith.
From Verif Require Import PyBase MTree MLabelled STree SLabelled.
Import ListNotations.

(** One root, every other token of the tree has a parent in the tree, and no cycle: arcs may cross. *)
Record labelled_parse (tuples : list token_tuple) : Prop := {
  lp_root : exists r t, nth_error tuples r = Some t /\ tt_dep t = ROOT /\
    forall r' t', nth_error tuples r' = Some t' -> tt_dep t' = ROOT -> r' = r;
  lp_head : forall i t, nth_error tuples i = Some t -> tt_dep t <> NODEP -> tt_dep t <> ROOT ->
    exists p, tt_parent t = Z.of_nat p /\ valid tuples p;
  lp_no_cycle : forall i, ~ dominates tuples i i
}.
(** No token has two subjects, two objects, two markers or two properties. *)
Definition single_dependents (tuples : list token_tuple) : Prop :=
  forall l p c c', In l [SUBJ; OBJ; MARK; PROP] -> labelled_arc tuples (l, p, c) -> labelled_arc tuples (l, p, c') -> c' = c.
