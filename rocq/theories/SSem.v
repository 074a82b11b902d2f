(** Specification of the semantic tuples of a sentence (semantics/semantic_tuple_extractor.py): which tuples the nodes [H],
    their relations [R] and the visited [nodes] give. [pp] gives past participles. *)
From Coq Require Import Ascii String.
From Coq Require Import List NArith Arith Bool.
From Verif Require Import PyBase MTree MNormal MNode MSem SNode.
Import ListNotations.
Local Open Scope nat_scope.

Section Spec.
  Variables (H : heap) (R : relheap) (pp : str -> str) (nodes : list nat).
  Definition negative (r : nat) : bool := negb (r_aff (R r)).
  (** affirmative: an even number of the nodes are negative *)
  Definition even_neg (l : list nat) : bool := Nat.even (length (filter negative l)).
  Definition wd (r : nat) : str := n_canon (H r).
  Definition nounish (r : nat) : Prop := noun_tag (n_tag (H r)).
  Definition verbal (r : nat) : Prop := n_tag (H r) = VERB.
  Definition subj_noun (v s : nat) : Prop := In s (r_list (R v) A_subjs) /\ nounish s.
  Definition obj_noun (v o : nat) : Prop := In o (r_list (R v) A_objs) /\ nounish o.
  Definition obj_verb (v o : nat) : Prop := In o (r_list (R v) A_objs) /\ verbal o.
  (** linking verbs: they have properties, indirect properties, or something that exists *)
  Definition linking (v : nat) : Prop := r_list (R v) A_props <> [] \/ r_list (R v) A_iprops <> [] \/ r_list (R v) A_exists <> [].
  Definition main (v : nat) : Prop := In v nodes /\ verbal v /\ n_inf_to (H v) = false /\ ~ linking v.
  (** [o] is the clause that a main verb has as an object *)
  Definition subordinate (o : nat) : Prop := exists v s, main v /\ subj_noun v s /\ obj_verb v o.
  Definition intransitive (v : nat) : Prop := r_list (R v) A_objs = [] /\ ~ In (wd v) (map lit ["have"; "get"; "be"; "do"]%string).
  Definition attribute (r : nat) : Prop := nounish r \/ n_tag (H r) = ADJ.

  (** Codes *)
  Definition ncode (r : nat) : string :=
    match n_tag (H r) with PROPN => "P" | PRON => "O" | NUM => "U" | SYM => "S" | _ => "N" end.
  Definition has_active (r : nat) (v : str) : Prop := n_active (H r) = Some v /\ v <> [].
  Definition acode (r : nat) : string := match n_active (H r) with None | Some [] => "A" | _ => "L" end.
  Definition pcode (r : nat) : string := match n_tag (H r) with ADJ => acode r | _ => ncode r end.
  Definition arg (w : str) (c : string) (b : bool) : argument := {| a_word := w; a_code := lit c; a_aff := b |}.
  Definition narg (r : nat) : argument := arg (wd r) (ncode r) true.
  (** the participle of a verb, with its particles *)
  Definition pp_words (v : nat) : str := join (lit " ") (pp (n_lemma (H v)) :: n_particles (H v)).
  (** [s2] is a subject of the clause [o]: one of its own if it has any, or else the subject [s1] of the main verb *)
  Definition clause_subj (s1 o s2 : nat) : Prop := (r_list (R o) A_subjs = [] /\ s2 = s1) \/ subj_noun o s2.

  Inductive tuple_of : stuple -> Prop :=
  (* "I want to sing", "I see the dog bark" *)
  | t_clause_intr : forall v s o s2, main v -> subj_noun v s -> obj_verb v o -> clause_subj s o s2 -> ~ linking o -> intransitive o ->
      tuple_of [narg s; arg (wd v) "T" (even_neg [s; v; s2; o]); narg s2; arg (wd o) "I" true]
  | t_clause_trans : forall v s o s2 o2, main v -> subj_noun v s -> obj_verb v o -> clause_subj s o s2 -> ~ linking o -> obj_noun o o2 ->
      tuple_of [narg s; arg (wd v) "T" (even_neg [s; v; s2; o; o2]); narg s2; arg (wd o) "T" true; narg o2]
  | t_clause_prop : forall v s o s2 p, main v -> subj_noun v s -> obj_verb v o -> clause_subj s o s2 -> In p (r_list (R o) A_props) ->
      tuple_of [narg s; arg (wd v) "T" (even_neg [s; v; s2; o; p]); narg s2; arg (wd o) "C" true; arg (wd p) (pcode p) true]
  (* "dogs bark", "dogs eat bones", "I gave you" *)
  | t_intr : forall v s, main v -> ~ subordinate v -> subj_noun v s -> intransitive v ->
      tuple_of [narg s; arg (wd v) "I" (even_neg [s; v])]
  | t_trans : forall v s o, main v -> ~ subordinate v -> subj_noun v s -> obj_noun v o ->
      tuple_of [narg s; arg (wd v) "T" (even_neg [s; v; o]); narg o]
  | t_rec : forall v s io, main v -> ~ subordinate v -> subj_noun v s -> In io (r_list (R v) A_iobjs) -> nounish io ->
      tuple_of [narg s; arg (wd v) "R" (even_neg [s; v; io]); narg io]
  (* "bones are eaten": the subjects count for one negation when all of them are negative *)
  | t_passive : forall v o, In v nodes -> verbal v -> ~ linking v -> ~ In (wd v) (map lit ["have"; "get"]%string) -> obj_noun v o ->
      tuple_of [narg o;
                arg (lit "be") "C" (xorb (even_neg [v; o])
                  (match r_list (R v) A_subjs with [] => false | ss => forallb negative ss end));
                arg (pp_words v) "L" true]
  (* "they elected Ann president": Ann be elected president *)
  | t_iprop : forall n s v p, In n nodes -> nounish n -> In (s, v, p) (r_svi (R n)) -> attribute p ->
      tuple_of [narg n; arg (join (lit " ") [lit "be"; pp_words v]) "C" (even_neg (match s with Some x => [x] | None => [] end ++ [v; n; p])); arg (wd p) (pcode p) true]
  (* "dogs are animals", and its active form *)
  | t_copula : forall n c p, In n nodes -> nounish n -> In (c, p) (r_copulas (R n)) -> attribute p ->
      tuple_of [narg n; arg (wd c) "C" (even_neg [n; c; p]); arg (wd p) (pcode p) true]
  | t_copula_active : forall n c p a v, In n nodes -> nounish n -> In (c, p) (r_copulas (R n)) -> n_tag (H p) = ADJ ->
      has_active p v -> In a (r_list (R p) A_agents) -> nounish a ->
      tuple_of [narg a; arg v "T" (even_neg [a; p; n]); narg n]
  (* "Ann, elected president" *)
  | t_pp_prop : forall n x p, In n nodes -> nounish n -> In (x, p) (r_pps (R n)) -> attribute p ->
      tuple_of [narg n; arg (join (lit " ") [lit "be"; wd x]) "C" (even_neg [n; x; p]); arg (wd p) (pcode p) true]
  (* "painted houses", and its active form *)
  | t_adj : forall n a, In n nodes -> nounish n -> In a (r_list (R n) A_adjs) ->
      tuple_of [narg n; arg (lit "be") "C" (even_neg [a; n]); arg (wd a) (acode a) true]
  | t_adj_active : forall n p a v, In n nodes -> nounish n -> In p (r_list (R n) A_adjs) -> has_active p v -> In a (r_list (R p) A_agents) -> nounish a ->
      tuple_of [narg a; arg v "T" (even_neg [a; p; n]); narg n].
End Spec.

(** * Grammar of codes *)
Definition noun_codes : list str := map lit ["N"; "O"; "P"; "S"; "U"]%string.
Definition attr_codes : list str := map lit ["N"; "O"; "P"; "S"; "U"; "A"; "L"]%string.
Inductive grammar : list str -> Prop :=
| g_I : forall n, In n noun_codes -> grammar [n; lit "I"]
| g_T : forall n m, In n noun_codes -> In m noun_codes -> grammar [n; lit "T"; m]
| g_R : forall n m, In n noun_codes -> In m noun_codes -> grammar [n; lit "R"; m]
| g_C : forall n a, In n noun_codes -> In a attr_codes -> grammar [n; lit "C"; a]
| g_TI : forall n m, In n noun_codes -> In m noun_codes -> grammar [n; lit "T"; m; lit "I"]
| g_TT : forall n m o, In n noun_codes -> In m noun_codes -> In o noun_codes -> grammar [n; lit "T"; m; lit "T"; o]
| g_TC : forall n m a, In n noun_codes -> In m noun_codes -> In a attr_codes -> grammar [n; lit "T"; m; lit "C"; a].

(** * Negation *)
Section Negation.
  Variables (H : heap) (R : relheap) (pp : str -> str).
  (** A group of nodes is negative when it has nodes and all of them are. *)
  Definition group_negative (g : list nat) : bool := match g with [] => false | _ => forallb (negative R) g end.
  Definition even_groups (gs : list (list nat)) : bool := Nat.even (length (filter group_negative gs)).
  (** The groups of nodes that a tuple is about, whatever its polarity [b]. Only the subjects of a passive form are more than
      one node. *)
  Inductive about : list (list nat) -> bool -> stuple -> Prop :=
  | ab_intr : forall s v b, about [[s]; [v]] b [narg H s; arg (wd H v) "I" b]
  | ab_trans : forall s v o b, about [[s]; [v]; [o]] b [narg H s; arg (wd H v) "T" b; narg H o]
  | ab_rec : forall s v o b, about [[s]; [v]; [o]] b [narg H s; arg (wd H v) "R" b; narg H o]
  | ab_active : forall a p n v b, has_active H p v -> about [[a]; [p]; [n]] b [narg H a; arg v "T" b; narg H n]
  | ab_passive : forall v o b, about [r_list (R v) A_subjs; [v]; [o]] b [narg H o; arg (lit "be") "C" b; arg (pp_words H pp v) "L" true]
  | ab_iprop : forall n s v p b c, about [match s with Some x => [x] | None => [] end; [v]; [n]; [p]] b
      [narg H n; arg (join (lit " ") [lit "be"; pp_words H pp v]) "C" b; arg (wd H p) c true]
  | ab_copula : forall n v p b c, about [[n]; [v]; [p]] b [narg H n; arg (wd H v) "C" b; arg (wd H p) c true]
  | ab_pp : forall n x p b c, about [[n]; [x]; [p]] b [narg H n; arg (join (lit " ") [lit "be"; wd H x]) "C" b; arg (wd H p) c true]
  | ab_adj : forall n a b c, about [[n]; [a]] b [narg H n; arg (lit "be") "C" b; arg (wd H a) c true]
  | ab_clause_intr : forall s v s2 o b, about [[s]; [v]; [s2]; [o]] b [narg H s; arg (wd H v) "T" b; narg H s2; arg (wd H o) "I" true]
  | ab_clause : forall s v s2 o p b c d, about [[s]; [v]; [s2]; [o]; [p]] b [narg H s; arg (wd H v) "T" b; narg H s2; arg (wd H o) c true; arg (wd H p) d true].
End Negation.

(** * Origin of the words *)
Section Origin.
  Variables (H : heap) (pp : str -> str) (sentence : nat -> Prop).
  Inductive word_from : str -> Prop :=
  | w_canon : forall r, sentence r -> word_from (wd H r)
  | w_active : forall r v, sentence r -> has_active H r v -> word_from v
  | w_be : word_from (lit "be")
  | w_pp : forall r, sentence r -> word_from (pp_words H pp r)
  | w_be_pp : forall r, sentence r -> word_from (join (lit " ") [lit "be"; pp_words H pp r])
  | w_be_canon : forall r, sentence r -> word_from (join (lit " ") [lit "be"; wd H r]).
End Origin.
