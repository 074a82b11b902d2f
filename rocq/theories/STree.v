(** Specification of trees: a tree is the history of its registrations, triples (label, parent, child)
    in order. Independent of the model's dictionaries. *)
From Coq Require Import List Arith Bool.
From Verif Require Import PyBase MTree SUtils.
Import ListNotations.

Definition arc := (dep * nat * nat)%type.
Definition a_label (a : arc) : dep := fst (fst a).
Definition a_parent (a : arc) : nat := snd (fst a).
Definition a_child (a : arc) : nat := snd a.

(** Labelled children of a node, in order of registration. *)
Definition under (h : list arc) (p : nat) : list (dep * nat) :=
  map (fun a => (a_label a, a_child a)) (filter (fun a => p =? a_parent a) h).
(** Last registration of a node as a child. *)
Definition last_reg (h : list arc) (c : nat) : option (dep * nat) :=
  fold_left (fun o a => if c =? a_child a then Some (a_label a, a_parent a) else o) h None.

(** A downward path of arcs of [h]. *)
Inductive path (h : list arc) : nat -> nat -> Prop :=
| path_one : forall l a b, In (l, a, b) h -> path h a b
| path_more : forall l a b c, In (l, a, b) h -> path h b c -> path h a c.
Definition acyclic (h : list arc) : Prop := forall a, ~ path h a a.

(** [anc] is the chain of parents of [x] reached by arcs labelled [l] only, furthest first, without
    [x]; it stops only where the parent arc is missing or has another label. *)
Inductive up_chain (h : list arc) (l : dep) : nat -> list nat -> Prop :=
| up_stop : forall x, (forall p, last_reg h x <> Some (l, p)) -> up_chain h l x []
| up_step : forall x p anc, last_reg h x = Some (l, p) -> up_chain h l p anc -> up_chain h l x (anc ++ [p]).
(** Children labelled [l], in order of registration. *)
Definition kids (h : list arc) (l : dep) (x : nat) : list nat :=
  map a_child (filter (fun a => (x =? a_parent a) && dep_eqb l (a_label a)) h).
(** Downward paths of arcs labelled [l]. *)
Inductive lpath (h : list arc) (l : dep) : nat -> nat -> Prop :=
| lpath_one : forall a b, In (l, a, b) h -> lpath h l a b
| lpath_more : forall a b c, In (l, a, b) h -> lpath h l b c -> lpath h l a c.

(** Arcs seen as intervals. *)
Definition lo (a : arc) : nat := Nat.min (a_parent a) (a_child a).
Definition hi (a : arc) : nat := Nat.max (a_parent a) (a_child a).
Definition crossing (a b : arc) : Prop := lo a < lo b < hi a /\ hi a < hi b.
Definition non_crossing (h : list arc) : Prop := forall a b, In a h -> In b h -> ~ crossing a b.
