(** Model of scrappybara/syntax/{tags,dependencies,transitions}.py and scrappybara/utils/tree.py. *)
From Coq Require Import Ascii String.
From Coq Require Import List NArith ZArith Arith Bool.
From Verif Require Import PyBase MUtils.
Import ListNotations.
Local Open Scope nat_scope.

(** * Enumerations *)

(** syntax/tags.py:4-33 [Tag] *)
Inductive tag : Set :=
| TPAD | ADJ | PREP | ADV | MAT | CONJ | DET | EXPR | NOUN | NUM | FRAG | PRON | PROPN | PUNCT | VERB | SYM | THERE.
Definition all_tags : list tag :=
  [TPAD; ADJ; PREP; ADV; MAT; CONJ; DET; EXPR; NOUN; NUM; FRAG; PRON; PROPN; PUNCT; VERB; SYM; THERE].
Definition tag_eq_dec (a b : tag) : {a = b} + {a <> b}.
Proof. decide equality. Defined.
Definition tag_eqb (a b : tag) : bool := if tag_eq_dec a b then true else false.
(** Tag(code): ValueError when there is no such member *)
Definition tag_of_code (n : nat) : res tag := of_option ValueError (nth_error all_tags n).
Definition tag_in (t : tag) (l : list tag) : bool := existsb (tag_eqb t) l.
(** syntax/tags.py:38-39 *)
Definition NOUN_TAGS : list tag := [NOUN; PROPN; PRON; SYM; NUM].
Definition PROP_TAGS : list tag := NOUN_TAGS ++ [ADJ].

(** syntax/dependencies.py:4-43 [Dep] *)
Inductive dep : Set :=
| DPAD | NODEP | ROOT | AND | ART | AUX | CALLEE | CMARK | CPL | EXIST | FLAT | IMARK | INTJ | IOBJ | IPROP | MARK
| MODAL | NEG | OBJ | OR | ORPHAN | PART | PROP | SPLIT | SUBJ.
Definition all_deps : list dep :=
  [DPAD; NODEP; ROOT; AND; ART; AUX; CALLEE; CMARK; CPL; EXIST; FLAT; IMARK; INTJ; IOBJ; IPROP; MARK;
   MODAL; NEG; OBJ; OR; ORPHAN; PART; PROP; SPLIT; SUBJ].
Definition dep_eq_dec (a b : dep) : {a = b} + {a <> b}.
Proof. decide equality. Defined.
Definition dep_eqb (a b : dep) : bool := if dep_eq_dec a b then true else false.
(** Dep(code) *)
Definition dep_of_code (n : nat) : res dep := of_option ValueError (nth_error all_deps n).
Definition dep_in (d : dep) (l : list dep) : bool := existsb (dep_eqb d) l.
(** syntax/dependencies.py:49-58; the sets of 53-55 are used nowhere and are left out *)
Definition MARKER_DEPS : list dep := [MARK; CMARK; IMARK].
Definition PROP_DEPS : list dep := [PROP; IPROP].
Definition FUNCTIONAL_DEPS : list dep := [ART; AUX; CMARK; NEG; INTJ; MARK; IMARK; PART; MODAL].

(** syntax/transitions.py:4-11 [Trans] *)
Inductive trans : Set := LEFT | RIGHT | REDUCE | SHIFT.

(** * Tree *)

(** utils/tree.py:9-12: nodes are natural numbers (token indexes, or references to Node objects), labels
    are dependencies. *)
Record tree := {
  t_root : nat;
  t_children : dict nat (dict dep (list nat));   (* node => {label: list of nodes} *)
  t_parents : dict nat (dep * nat)               (* node => (label, node) *)
}.
Definition new_tree (root : nat) : tree := {| t_root := root; t_children := []; t_parents := [] |}.

(** utils/tree.py:14-22: the arcs given by iteration *)
Definition t_iter (t : tree) : list (dep * nat * nat) := map (fun '(c, (l, p)) => (l, p, c)) (t_parents t).
(** utils/tree.py:24-25 *)
Definition t_len (t : tree) : nat := 1 + length (dkeys (t_parents t)).
(** utils/tree.py:27-30 [register_child] *)
Definition register_child (t : tree) (label : dep) (parent child : nat) : res tree :=
  if parent =? child then Err AssertionError
  else Ok {| t_root := t_root t;
             t_children := append_in_dict_dict_list Nat.eqb dep_eqb (t_children t) parent label child;
             t_parents := dset Nat.eqb child (label, parent) (t_parents t) |}.
(** utils/tree.py:32-34 [nodes] *)
Definition t_nodes (t : tree) : list nat := t_root t :: dkeys (t_parents t).
(** utils/tree.py:36-37 [has_node] *)
Definition has_node (t : tree) (n : nat) : bool := dmem Nat.eqb n (t_children t) || dmem Nat.eqb n (t_parents t).
(** utils/tree.py:76-81 [parent] *)
Definition t_parent (t : tree) (n : nat) : option (dep * nat) := dget Nat.eqb n (t_parents t).

(** utils/tree.py:39-56 [ancestors_via]. The recursion of _recurse_climb is bounded by [fuel]; it does
    not end on a cycle of parents (Python would raise RecursionError). The list is built furthest
    ancestor first, as after the final reverse(). *)
Fixpoint climb (fuel : nat) (t : tree) (n : nat) (label : dep) : res (list nat) :=
  match t_parent t n with
  | Some (l, p) =>
    if dep_eqb l label then
      match fuel with
      | O => Err OutOfFuel
      | S f => let! anc := climb f t p label in Ok (anc ++ [p])
      end
    else Ok []
  | None => Ok []
  end.
Definition ancestors_via (t : tree) (n : nat) (label : dep) : res (list nat) := climb (length (t_parents t)) t n label.

(** utils/tree.py:102-106 [children_via] *)
Definition children_via (t : tree) (n : nat) (label : dep) : list nat :=
  match dget Nat.eqb n (t_children t) with
  | Some d => match dget dep_eqb label d with Some l => l | None => [] end
  | None => []
  end.

(** utils/tree.py:58-74 [descendants_via], with the same bound on the depth of the recursion. A KeyError
    is caught in the call where it happens, where it ends the search below that node: it can only
    come from the two dictionary lookups of lines 66-67, before any child is visited. *)
Fixpoint descend (fuel : nat) (t : tree) (n : nat) (label : dep) : res (list nat) :=
  match fuel with
  | O => match children_via t n label with [] => Ok [] | _ => Err OutOfFuel end
  | S f => let! ls := mapM (fun c => let! l := descend f t c label in Ok (c :: l)) (children_via t n label) in Ok (concat ls)
  end.
Definition descendants_via (t : tree) (n : nat) (label : dep) : res (list nat) := descend (length (t_parents t)) t n label.

(** utils/tree.py:83-87 [has_parent_via] *)
Definition has_parent_via (t : tree) (n : nat) (label : dep) : bool :=
  match t_parent t n with Some (l, _) => dep_eqb l label | None => false end.
(** utils/tree.py:89-93 [has_parent_via_set] *)
Definition has_parent_via_set (t : tree) (n : nat) (labels : list dep) : bool :=
  match t_parent t n with Some (l, _) => dep_in l labels | None => false end.
(** utils/tree.py:95-100 [children] *)
Definition t_children_of (t : tree) (n : nat) : list (dep * nat) :=
  match dget Nat.eqb n (t_children t) with
  | Some d => flat_map (fun '(l, cs) => map (fun c => (l, c)) cs) d
  | None => []
  end.
(** utils/tree.py:108-113 [child_via]: an IndexError on [0] cannot happen, lists being created with one
    item *)
Definition child_via (t : tree) (n : nat) (label : dep) : option nat :=
  match dget Nat.eqb n (t_children t) with
  | Some d => match dget dep_eqb label d with Some (c :: _) => Some c | _ => None end
  | None => None
  end.
(** utils/tree.py:115-119 [has_child_via] *)
Definition has_child_via (t : tree) (n : nat) (label : dep) : bool :=
  match dget Nat.eqb n (t_children t) with Some d => dmem dep_eqb label d | None => false end.
(** utils/tree.py:121-125 [has_child_via_set] *)
Definition has_child_via_set (t : tree) (n : nat) (labels : list dep) : bool :=
  match dget Nat.eqb n (t_children t) with Some d => existsb (fun l => dep_in l labels) (dkeys d) | None => false end.
(** utils/tree.py:127-137 [siblings] *)
Definition siblings (t : tree) (n : nat) : list (dep * nat) :=
  match t_parent t n with
  | Some (_, p) => filter (fun '(_, c) => negb (c =? n)) (t_children_of t p)
  | None => []
  end.
