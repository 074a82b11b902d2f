(** Specification of the arguments found for each node (syntax/arg_finder.py), from the arcs [h] of the node tree, in order,
    the nodes themselves [H] and the list [nodes] of the nodes that are visited. *)
From Coq Require Import Ascii String.
From Coq Require Import List NArith Arith Bool.
From Verif Require Import PyBase MTree MNormal MNode STree SNode.
Import ListNotations.

Section Spec.
  Variables (h : list arc) (H : heap) (nodes : list nat).
  Definition tag_of (x : nat) : tag := n_tag (H x).
  Definition word (x : nat) : str := n_canon (H x).
  Definition attached (c : nat) (l : dep) (p : nat) : Prop := In c nodes /\ last_reg h c = Some (l, p).
  Definition has_kid (l : dep) (x : nat) : Prop := exists c, In (l, x, c) h.
  Definition first_kid (l : dep) (x y : nat) : Prop := exists rest, kids h l x = y :: rest.
  Definition marked (x : nat) : Prop := has_kid MARK x \/ has_kid CMARK x \/ has_kid IMARK x.
  Definition conjunct (x y : nat) : Prop := In x nodes /\ (In (AND, x, y) h \/ In (OR, x, y) h).
  (** [y] is [x] or one of its direct conjuncts. *)
  Definition coordinated (x y : nat) : Prop := y = x \/ conjunct x y.

  Definition relative (x : nat) : Prop := tag_of x = PRON /\ In (word x) (map lit ["that"; "which"; "who"]%string).
  Definition reflexive (x : nat) : Prop :=
    In (word x) (map lit ["myself"; "yourself"; "yourselves"; "himself"; "herself"; "itself"; "ourself"; "ourselves";
                          "theirself"; "themselves"; "oneself"]%string).
  (** [noun] is modified by the unmarked clause of the verb [v]. *)
  Definition modified_by (noun v : nat) : Prop := last_reg h v = Some (CPL, noun) /\ noun_tag (tag_of noun) /\ ~ marked v.
  (** What the pronoun [x] stands for as a subject of [v] ... *)
  Inductive subj_antecedent (v x : nat) : nat -> Prop :=
  | sa_rel : forall y, relative x -> modified_by y v -> subj_antecedent v x y
  | sa_refl : forall p y, ~ (relative x /\ exists z, modified_by z v) -> reflexive x -> last_reg h v = Some (OBJ, p) -> tag_of p = VERB ->
      first_kid SUBJ p y -> subj_antecedent v x y.
  (** ... and as an object of [v] *)
  Inductive obj_antecedent (v x : nat) : nat -> Prop :=
  | oa_rel : forall y, relative x -> modified_by y v -> obj_antecedent v x y
  | oa_refl : forall y, ~ (relative x /\ exists z, modified_by z v) -> reflexive x -> first_kid SUBJ v y -> obj_antecedent v x y.
  Definition stands_for (antecedent : nat -> nat -> nat -> Prop) (v x y : nat) : Prop :=
    antecedent v x y \/ (y = x /\ forall z, ~ antecedent v x z).

  (** A subject of [v] is shared with the conjuncts of [v] that have no subject, an object with those that have no dependent. *)
  Definition shares_subj (v v' : nat) : Prop := v' = v \/ (conjunct v v' /\ ~ has_kid SUBJ v').
  Definition shares_obj (v v' : nat) : Prop := v' = v \/ (conjunct v v' /\ forall l, ~ has_kid l v').

  Inductive subject : nat -> nat -> Prop :=
  | subject_direct : forall x v v' y s, attached x SUBJ v -> stands_for subj_antecedent v x y -> shares_subj v v' -> coordinated y s -> subject v' s
    (* "I ate but didn't drink" *)
  | subject_distant : forall v p y v' s, attached v CPL p -> has_kid MARK v -> tag_of v = VERB -> tag_of p = VERB -> ~ has_kid SUBJ v ->
      first_kid SUBJ p y -> shares_subj v v' -> coordinated y s -> subject v' s.
  Inductive object : nat -> nat -> Prop :=
  | object_direct : forall x v v' y o, attached x OBJ v -> stands_for obj_antecedent v x y -> shares_obj v v' -> coordinated y o -> object v' o
    (* "the apple I ate" *)
  | object_distant : forall v p s v' o, attached v CPL p -> ~ marked v -> noun_tag (tag_of p) -> ~ has_kid OBJ v ->
      first_kid SUBJ v s -> ~ In (word s) (map lit ["that"; "which"; "who"]%string) -> shares_obj v v' -> coordinated p o -> object v' o.

  (** The other relations *)
  Definition dependent (l : dep) (v y : nat) : Prop := exists x, attached x l v /\ coordinated x y.
  Inductive adjective : nat -> nat -> Prop :=
  | adj_cpl : forall n x y, attached x CPL n -> ~ has_kid MARK x -> tag_of x = ADJ -> coordinated x y -> adjective n y
    (* "sweeter than apples" *)
  | adj_cmp : forall n x y, attached n CPL x -> has_kid CMARK n -> tag_of x = ADJ -> noun_tag (tag_of n) -> coordinated x y -> adjective n y.
  Inductive agent : nat -> nat -> Prop :=
  | agent_by : forall d x m l p y, attached x CPL d -> first_kid MARK x m -> word m = lit "by" -> last_reg h d = Some (l, p) -> l = PROP \/ l = CPL ->
      coordinated x y -> agent d y.
  Inductive copula_prop : nat -> nat * nat -> Prop :=
  | copula : forall x v s0 y s p, attached x PROP v -> first_kid SUBJ v s0 ->
      ((relative s0 /\ modified_by y v) \/ (y = s0 /\ ~ (relative s0 /\ exists z, modified_by z v))) ->
      coordinated y s -> coordinated x p -> ~ marked p -> copula_prop s (v, p).
  Inductive pp_prop : nat -> nat * nat -> Prop :=
  | participle_prop : forall pp n x y, attached pp CPL n -> ~ has_kid MARK pp -> tag_of pp = ADJ -> n_suffix (H pp) = Some PAST -> noun_tag (tag_of n) ->
      first_kid PROP pp x -> coordinated x y -> pp_prop n (pp, y).
  Inductive subj_verb_iprop : nat -> option nat * nat * nat -> Prop :=
  | iprop : forall x v o o' y s, attached x IPROP v -> first_kid OBJ v o -> coordinated o o' -> coordinated x y ->
      (forall z, s = Some z <-> first_kid SUBJ v z) -> subj_verb_iprop o' (s, v, y).
End Spec.
