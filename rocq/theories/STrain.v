(** Specification vocabulary for the data extracted to train the models. A sentence is its list of token tuples. *)
From Coq Require Import Ascii String.
From Coq Require Import List NArith ZArith Arith.
From Verif Require Import PyBase Regex MUtils MTree MVector MParser MLabelled MTrain STree SParser SLabelled.
Import ListNotations.

(** The names under which tags and dependencies are written in the data *)
Definition tag_name (t : tag) : str :=
  match t with
  | TPAD => lit "PAD" | ADJ => lit "ADJ" | PREP => lit "PREP" | ADV => lit "ADV" | MAT => lit "MAT" | CONJ => lit "CONJ" | DET => lit "DET"
  | EXPR => lit "EXPR" | NOUN => lit "NOUN" | NUM => lit "NUM" | FRAG => lit "FRAG" | PRON => lit "PRON" | PROPN => lit "PROPN"
  | PUNCT => lit "PUNCT" | VERB => lit "VERB" | SYM => lit "SYM" | THERE => lit "THERE"
  end.
Definition dep_name (d : dep) : str :=
  match d with
  | DPAD => lit "PAD" | NODEP => lit "NODEP" | ROOT => lit "ROOT" | AND => lit "AND" | ART => lit "ART" | AUX => lit "AUX" | CALLEE => lit "CALLEE"
  | CMARK => lit "CMARK" | CPL => lit "CPL" | EXIST => lit "EXIST" | FLAT => lit "FLAT" | IMARK => lit "IMARK" | INTJ => lit "INTJ" | IOBJ => lit "IOBJ"
  | IPROP => lit "IPROP" | MARK => lit "MARK" | MODAL => lit "MODAL" | NEG => lit "NEG" | OBJ => lit "OBJ" | OR => lit "OR" | ORPHAN => lit "ORPHAN"
  | PART => lit "PART" | PROP => lit "PROP" | SPLIT => lit "SPLIT" | SUBJ => lit "SUBJ"
  end.
Definition named (t : token_tuple) : named_tuple :=
  {| nt_token := tt_token t; nt_tag := tag_name (tt_tag t); nt_dep := dep_name (tt_dep t); nt_parent := tt_parent t |}.

(** the sentence has a root *)
Definition rooted (tuples : list token_tuple) : Prop := exists t, In t tuples /\ tt_dep t = ROOT.
(** no token is its own parent *)
Definition no_self (tuples : list token_tuple) : Prop := forall l c, ~ labelled_arc tuples (l, c, c).
(** what is kept of a sentence: nothing without a root *)
Inductive kept : list token_tuple -> list token_tuple -> Prop :=
| kept_rooted : forall t, rooted t -> kept t t
| kept_not : forall t, ~ rooted t -> kept t [].

(** A row of 52 codes: the label of token i is read at position i + 1, all other positions are padding. *)
Definition label_row {A} (decode : nat -> res A) (labels : list A) (row : list nat) : Prop :=
  length row = 52 /\
  (forall i a, nth_error labels i = Some a -> exists c, nth_error row (i + 1) = Some c /\ decode c = Ok a) /\
  (forall i c, nth_error row i = Some c -> i = 0 \/ length labels < i -> c = 0).
(** 52 booleans, the one at position [i] is true *)
Definition one_hot (i : nat) (mask : list bool) : Prop := length mask = 52 /\ i < 52 /\ forall j b, nth_error mask j = Some b -> (b = true <-> j = i).

Section Examples.
  Context (V : Type) (v0 : V) (U : udb) (cs : charset) (ws : wordset V).
  (** what must be extracted from a sentence to learn its tags: the sentence as the parser will see it, and its tags *)
  Definition tags_example (tuples : list token_tuple) (row : ptags_mats V) : Prop :=
    exists d y, vectorize_sentence V v0 U cs ws (map tt_token tuples) = Ok d /\ label_row tag_of_code (map tt_tag tuples) y /\
      row = (m_chars d, m_words d, y).
  (** to learn its dependencies: the tags too *)
  Definition deps_example (tuples : list token_tuple) (row : pdeps_mats V) : Prop :=
    exists d x y, vectorize_sentence V v0 U cs ws (map tt_token tuples) = Ok d /\ label_row tag_of_code (map tt_tag tuples) x /\
      label_row dep_of_code (map tt_dep tuples) y /\ row = (x, m_chars d, m_words d, y).
  (** to learn one transition: tags, dependencies and the two tokens *)
  Definition trans_example (tuples : list token_tuple) (tr : nat * nat * trans) (row : trans_mats V) : Prop :=
    exists d x1 x2 m1 m2, vectorize_sentence V v0 U cs ws (map tt_token tuples) = Ok d /\ label_row tag_of_code (map tt_tag tuples) x1 /\
      label_row dep_of_code (map tt_dep tuples) x2 /\ one_hot (fst (fst tr) + 1) m1 /\ one_hot (snd (fst tr) + 1) m2 /\
      row = (x1, x2, m_chars d, m_words d, m1, m2, trans_code (snd tr)).
  (** all transitions of a sentence *)
  Definition sentence_trans (tuples : list token_tuple) (rows : list (trans_mats V)) : Prop :=
    exists l trs, make_labelled tuples = Ok l /\ transitions l = Ok trs /\ Forall2 (trans_example tuples) trs rows.

  (** A model has learned the data: on each line of the columns it answers the last column. *)
  Context (M : models V).
  Definition learned_tags (data : option (list (list (list nat)) * list (list (list V)) * list (list nat))) : Prop :=
    forall chars words tags, data = Some (chars, words, tags) ->
    forall i c w y, nth_error chars i = Some c -> nth_error words i = Some w -> nth_error tags i = Some y -> ptags_model M c w = y.
  Definition learned_deps (data : option (list (list nat) * list (list (list nat)) * list (list (list V)) * list (list nat))) : Prop :=
    forall tags chars words deps, data = Some (tags, chars, words, deps) ->
    forall i t c w y, nth_error tags i = Some t -> nth_error chars i = Some c -> nth_error words i = Some w -> nth_error deps i = Some y ->
      pdeps_model M t c w = y.
  Definition learned_trans (data : option (list (list nat) * list (list nat) * list (list (list nat)) * list (list (list V)) * list (list bool) *
      list (list bool) * list nat)) : Prop :=
    forall tags deps chars words masks_1 masks_2 codes, data = Some (tags, deps, chars, words, masks_1, masks_2, codes) ->
    forall i t d c w m1 m2 y, nth_error tags i = Some t -> nth_error deps i = Some d -> nth_error chars i = Some c -> nth_error words i = Some w ->
      nth_error masks_1 i = Some m1 -> nth_error masks_2 i = Some m2 -> nth_error codes i = Some y -> trans_model M t d c w m1 m2 = y.

  (** The tree is the labelled one. A sentence whose root is its only token in the tree has no arc, and the parser gives it no tree. *)
  Definition labelled_tree (tuples : list token_tuple) (o : option tree) : Prop :=
    match o with
    | None => forall a, ~ labelled_arc tuples a
    | Some t =>
      (exists tr, nth_error tuples (t_root t) = Some tr /\ tt_dep tr = ROOT) /\
      (forall l p c, t_parent t c = Some (l, p) <-> labelled_arc tuples (l, p, c)) /\
      (forall l p c, In (l, c) (t_children_of t p) <-> labelled_arc tuples (l, p, c)) /\
      (exists a, labelled_arc tuples a)
    end.
End Examples.
