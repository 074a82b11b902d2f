(** Specifications for the properties of nodes: what a parse is, which tokens make a node, and what the node says.
    Independent of the model's loops. *)
From Coq Require Import Ascii String.
From Coq Require Import List NArith ZArith Arith Bool Permutation Sorted.
From Verif Require Import PyBase Regex MTree MNormal MNode STree.
Import ListNotations.
Local Open Scope nat_scope.

(** The calls register_child(label, parent, child) of [h], in order, on Tree(root). *)
Definition registered (root : nat) (h : list arc) : res tree :=
  foldM (fun t '(label, parent, child) => register_child t label parent child) (new_tree root) h.

(** A token takes part in the tree. *)
Definition takes_part (h : list arc) (i : nat) : Prop := exists a, In a h /\ (a_parent a = i \/ a_child a = i).

(** A parse of [n] tokens: arcs between tokens, without cycle; the root is a token, hangs from nothing, and takes part in
    the tree unless it is alone. *)
Definition parse_ok (n root : nat) (h : list arc) : Prop :=
  (forall a, In a h -> a_parent a < n /\ a_child a < n) /\ acyclic h /\ root < n /\ ~ In root (map a_child h) /\
  (h <> [] -> In root (map a_parent h)).

(** [x] is the last token of a flat name: it has no child and hangs by FLAT; [anc] are the tokens above it in that name,
    the head first. *)
Definition flat_leaf (h : list arc) (x : nat) (anc : list nat) : Prop :=
  (forall l c, ~ In (l, x, c) h) /\ up_chain h FLAT x anc /\ anc <> [].

(** A flat name that does not branch: from the head [a] down, each token has exactly one child by FLAT, which hangs from it,
    and the last one has no child. *)
Inductive flat_chain (h : list arc) : nat -> list nat -> Prop :=
| fc_end : forall x, (forall l c, ~ In (l, x, c) h) -> flat_chain h x [x]
| fc_more : forall a b l, kids h FLAT a = [b] -> last_reg h b = Some (FLAT, a) -> flat_chain h b l -> flat_chain h a (a :: l).

(** A word that stands for itself: in the tree, not in a flat name, not a particle. *)
Definition own_word (h : list arc) (k : nat) : Prop :=
  takes_part h k /\ (forall x anc, flat_leaf h x anc -> ~ In k (x :: anc)) /\ (forall p, ~ In (PART, p, k) h).

(** Labels of the words that do not survive. *)
Definition functional (l : dep) : Prop := In l [ART; AUX; CMARK; NEG; INTJ; MARK; IMARK; PART; MODAL].

(** [ps] are the positions of the particles of [k] that come after it, in the order of the sentence. *)
Definition particles_after (h : list arc) (k : nat) (ps : list nat) : Prop :=
  StronglySorted le ps /\ Permutation (filter (Nat.ltb k) (kids h PART k)) ps.

(** * Tag fixing *)
Definition noun_tag (t : tag) : Prop := In t [NOUN; PROPN; PRON; SYM; NUM].
(** [b] is [a] up to its tag. *)
Definition same_but_tag (a b : node) : Prop :=
  n_idx b = n_idx a /\ n_original b = n_original a /\ n_particles b = n_particles a /\ n_inf_to b = n_inf_to a /\
  n_standard b = n_standard a /\ n_lemma b = n_lemma a /\ n_suffix b = n_suffix a /\ n_chunk b = n_chunk a /\
  n_canon b = n_canon a /\ n_active b = n_active a.
(** A leaf attached by CPL to a noun, or by PROP or IPROP. *)
Definition fixable (h : list arc) (H : heap) (r : nat) : Prop :=
  (forall l c, ~ In (l, r, c) h) /\
  exists d p, last_reg h r = Some (d, p) /\ ((d = CPL /\ noun_tag (n_tag (H p))) \/ d = PROP \/ d = IPROP).

(** * Compounds *)
(** The noun [c] is attached by an unmarked CPL arc to the later noun [p]. *)
Definition compounds_with (h : list arc) (H : heap) (nodes : list nat) (c p : nat) : Prop :=
  In c nodes /\ noun_tag (n_tag (H c)) /\ noun_tag (n_tag (H p)) /\ last_reg h c = Some (CPL, p) /\
  n_idx (H c) < n_idx (H p) /\ (forall l x, In l [MARK; CMARK; IMARK] -> ~ In (l, c, x) h).
(** [x] is [r] or reaches it through such arcs. *)
Inductive in_compound (h : list arc) (H : heap) (nodes : list nat) : nat -> nat -> Prop :=
| ic_self : forall r, in_compound h H nodes r r
| ic_up : forall x y r, compounds_with h H nodes x y -> in_compound h H nodes y r -> in_compound h H nodes x r.
(** [b] is [a] up to its chunk. *)
Definition same_but_chunk (a b : node) : Prop :=
  n_idx b = n_idx a /\ n_original b = n_original a /\ n_tag b = n_tag a /\ n_particles b = n_particles a /\ n_inf_to b = n_inf_to a /\
  n_standard b = n_standard a /\ n_lemma b = n_lemma a /\ n_suffix b = n_suffix a /\
  n_canon b = n_canon a /\ n_active b = n_active a.

(** * Canonical forms *)
Definition subject_form (s : str) : option str :=
  match find (fun p => str_eqb s (lit (fst p))) [("me", "i"); ("you", "you"); ("her", "she"); ("him", "he"); ("us", "we"); ("them", "they")]%string with
  | Some p => Some (lit (snd p))
  | None => None
  end.
(** the canonical form of a node, from its tag, lemma, particles and chunk *)
Inductive canonical (n : node) : str -> Prop :=
| can_pron : forall s, n_tag n = PRON -> subject_form (n_lemma n) = Some s -> canonical n s
| can_chunk : forall s, n_tag n = NOUN -> n_chunk n = Some s -> s <> [] -> canonical n s
| can_particles : n_tag n = VERB \/ n_tag n = ADJ -> canonical n (join (lit " ") (n_lemma n :: n_particles n))
| can_lemma : (n_tag n = PRON -> subject_form (n_lemma n) = None) -> (n_tag n = NOUN -> n_chunk n = None \/ n_chunk n = Some []) ->
    n_tag n <> VERB -> n_tag n <> ADJ -> canonical n (n_lemma n).
