(** Specification vocabulary for labelled sentences. A sentence is its list of token tuples. *)
From Coq Require Import List ZArith Arith.
From Verif Require Import PyBase MTree MLabelled STree.
Import ListNotations.

(** The labelled arc from token [p] to token [c]. *)
Definition labelled_arc (tuples : list token_tuple) (a : arc) : Prop :=
  exists t, nth_error tuples (a_child a) = Some t /\ tt_dep t = a_label a /\ tt_parent t = Z.of_nat (a_parent a) /\
    tt_dep t <> ROOT /\ tt_dep t <> NODEP.
(** Tokens of the tree. *)
Definition valid (tuples : list token_tuple) (i : nat) : Prop :=
  exists t, nth_error tuples i = Some t /\ tt_dep t <> NODEP.
(** Dominance: a chain of labelled arcs down from [p]. *)
Inductive dominates (tuples : list token_tuple) : nat -> nat -> Prop :=
| dom_one : forall l p c, labelled_arc tuples (l, p, c) -> dominates tuples p c
| dom_more : forall l p m c, labelled_arc tuples (l, p, m) -> dominates tuples m c -> dominates tuples p c.

(** One root, every other token of the tree has a parent in the tree, no cycle, and all that lies
    between the two ends of an arc is dominated by its parent end. *)
Record projective_tree (tuples : list token_tuple) : Prop := {
  one_root : exists r t, nth_error tuples r = Some t /\ tt_dep t = ROOT /\
    forall r' t', nth_error tuples r' = Some t' -> tt_dep t' = ROOT -> r' = r;
  has_head : forall i t, nth_error tuples i = Some t -> tt_dep t <> NODEP -> tt_dep t <> ROOT ->
    exists p, tt_parent t = Z.of_nat p /\ valid tuples p;
  no_cycle : forall i, ~ dominates tuples i i;
  projective : forall l p c k, labelled_arc tuples (l, p, c) -> valid tuples k ->
    Nat.min p c < k < Nat.max p c -> dominates tuples p k
}.
