(** Model of scrappybara/syntax/labelled_data.py: labelled sentences and the transitions derived from
    them. The extraction of training data is in MTrain.v, the warnings (125-134) in MWarn.v and the views of a
    sentence (89-102) in MViews.v. *)
From Coq Require Import Ascii String.
From Coq Require Import List NArith ZArith Arith Bool.
From Verif Require Import PyBase MTree.
Import ListNotations.
Local Open Scope nat_scope.

(** sorted([a, b]) *)
Definition sort2 (a : nat * nat) : nat * nat := if snd a <? fst a then (snd a, fst a) else a.
(** Comparison of two-element lists *)
Definition pair_lt (a b : nat * nat) : bool := (fst a <? fst b) || ((fst a =? fst b) && (snd a <? snd b)).
(** syntax/labelled_data.py:23-25 [_arcs_are_crossing] *)
Definition arcs_are_crossing (arc_1 arc_2 : nat * nat) : bool :=
  let a := sort2 arc_1 in
  let b := sort2 arc_2 in
  let '(a, b) := if pair_lt b a then (b, a) else (a, b) in
  (fst a <? fst b) && (fst b <? snd a) && (snd a <? snd b).

(** A token tuple (token, tag, dependency, parent index); names of tags and dependencies already
    decoded. The parent index is -1 for a token without parent. *)
Record token_tuple := { tt_token : str; tt_tag : tag; tt_dep : dep; tt_parent : Z }.

(** syntax/labelled_data.py:62-87 [LabelledSentence]: without a ROOT, tokens, tags and deps stay empty *)
Record labelled := { l_tokens : list str; l_tags : list tag; l_deps : list dep; l_tree : option tree }.
Definition make_labelled (tuples : list token_tuple) : res labelled :=
  match find (fun '(_, t) => dep_eqb (tt_dep t) ROOT) (enumerate tuples) with
  | None => Ok {| l_tokens := []; l_tags := []; l_deps := []; l_tree := None |}
  | Some (root_idx, _) =>
    let! t := foldM (fun tr '(child_idx, tu) =>
                       if negb (dep_in (tt_dep tu) [ROOT; NODEP]) && (-1 <? tt_parent tu)%Z
                       then register_child tr (tt_dep tu) (Z.to_nat (tt_parent tu)) child_idx
                       else Ok tr) (new_tree root_idx) (enumerate tuples) in
    Ok {| l_tokens := map tt_token tuples; l_tags := map tt_tag tuples; l_deps := map tt_dep tuples; l_tree := Some t |}
  end.

(** syntax/labelled_data.py:104-109 [_is_parent] *)
Definition l_is_parent (t : tree) (parent_idx child_idx : nat) : bool :=
  match t_parent t child_idx with Some (_, idx) => idx =? parent_idx | None => false end.
(** syntax/labelled_data.py:111-123 [_has_arc_before] *)
Definition has_arc_before (t : tree) (token_idx max_idx : nat) : bool :=
  match t_parent t token_idx with Some (_, p) => p <? max_idx | None => false end ||
  existsb (fun '(_, c) => c <? max_idx) (t_children_of t token_idx).
(** syntax/labelled_data.py:136-143 [valid_idxs] *)
Definition valid_idxs (deps : list dep) : list nat :=
  map fst (filter (fun '(_, d) => negb (dep_eqb d NODEP)) (enumerate deps)).
(** syntax/labelled_data.py:145-146 [is_leaf] *)
Definition is_leaf (t : tree) (idx : nat) : bool := match t_children_of t idx with [] => true | _ => false end.

(** syntax/labelled_data.py:148-156 [have_crossing_arcs]: subscripting None raises TypeError when a child
    has no parent *)
Definition have_crossing_arcs (t : tree) (c1 c2 : nat) : res bool :=
  if (c1 =? t_root t) || (c2 =? t_root t) then Ok false
  else
    let! p1 := of_option TypeError (t_parent t c1) in
    let! p2 := of_option TypeError (t_parent t c2) in
    Ok (arcs_are_crossing (snd p1, c1) (snd p2, c2)).

(** syntax/labelled_data.py:173-188, the loop; the stack is given top first *)
Fixpoint oracle_loop (fuel : nat) (t : tree) (stack buffer : list nat) : res (list (nat * nat * trans)) :=
  match buffer with
  | [] => Ok []
  | b :: bs =>
    match fuel with
    | O => Err OutOfFuel
    | S f =>
      match stack with
      | [] => oracle_loop f t [b] bs
      | s :: ss =>
        if l_is_parent t b s then let! r := oracle_loop f t ss buffer in Ok ((s, b, LEFT) :: r)
        else if l_is_parent t s b then let! r := oracle_loop f t (b :: stack) bs in Ok ((s, b, RIGHT) :: r)
        else if has_arc_before t b s then let! r := oracle_loop f t ss buffer in Ok ((s, b, REDUCE) :: r)
        else let! r := oracle_loop f t (b :: stack) bs in Ok ((s, b, SHIFT) :: r)
      end
    end
  end.
(** syntax/labelled_data.py:158-189 [transitions]; with no tree the sentence has no token and no
    transition *)
Definition transitions (l : labelled) : res (list (nat * nat * trans)) :=
  match l_tree l with
  | None => Ok []
  | Some t =>
    let buffer := valid_idxs (l_deps l) in
    let fuel := 2 * length buffer in
    match buffer with
    | [] => Ok []
    | b :: bs => oracle_loop fuel t [b] bs
    end
  end.
