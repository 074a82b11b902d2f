(** Specification vocabulary for parses: what predictions and executions are. *)
From Coq Require Import List ZArith Arith.
From Verif Require Import PyBase Regex MUtils MTree MVector MParser STree.
Import ListNotations.

(** codes predicted by the models, in range *)
Definition codes_ok (bound : nat) (codes : list nat) : Prop := length codes = PADDED_SENT_LENGTH /\ Forall (fun c => c < bound) codes.
(** a parse that has just been created for a sentence of [n] tokens, from arbitrary predictions *)
Definition start (n : nat) (p0 : parse) : Prop :=
  n <= MAX_SENT_LENGTH /\ exists tag_codes dep_codes, codes_ok 17 tag_codes /\ codes_ok 25 dep_codes /\
    init_parse (n + 2) tag_codes dep_codes = Ok p0.
(** transitions applied one after the other, each to an incomplete parse *)
Inductive run : parse -> list trans -> parse -> Prop :=
| run_nil : forall p, run p [] p
| run_cons : forall p t p' ts p'', p_complete p = false -> register_transition p t = Ok p' -> run p' ts p'' -> run p (t :: ts) p''.
(** number of tokens that are in the tree *)
Definition nb_in_tree (deps : list dep) : nat := length (filter (fun d => negb (dep_eqb d NODEP)) deps).
(** token [i] is in the tree *)
Definition tok_in_tree (deps : list dep) (i : nat) : Prop := exists d, nth_error deps i = Some d /\ d <> NODEP.
(** The parser in states where its stack top and first buffer item are those recorded with each transition *)
Inductive follows : parse -> list (nat * nat * trans) -> parse -> Prop :=
| follows_nil : forall p, follows p [] p
| follows_cons : forall p s b t p' l p'', stack_top p = Ok s -> buffer_first p = Ok b -> register_transition p t = Ok p' ->
    follows p' l p'' -> follows p ((s, b, t) :: l) p''.


Section Models.
  Context (V : Type) (v0 : V) (U : udb) (M : models V) (cs : charset) (ws : wordset V).
  (** the models predict 52 codes of tags, 52 codes of dependencies, one code of transition *)
  Record models_ok : Prop := {
    ok_tags : forall c w, codes_ok 17 (ptags_model M c w);
    ok_deps : forall t c w, codes_ok 25 (pdeps_model M t c w);
    ok_trans : forall t d c w m1 m2, trans_model M t d c w m1 m2 < 4
  }.
  (** the code of a transition *)
  Definition trans_code (t : trans) : nat := match t with LEFT => 0 | RIGHT => 1 | REDUCE => 2 | SHIFT => 3 end.
  (** the transition the model predicts for a parse: it sees the codes of tags and dependencies, the sentence, and where the stack
      top and the first buffer item are *)
  Definition predicts (tag_codes dep_codes : list nat) (d : mats V) (p : parse) (t : trans) : Prop :=
    exists s b masks, stack_top p = Ok s /\ buffer_first p = Ok b /\ make_masks (s + 1) (b + 1) = Ok masks /\
      trans_model M tag_codes dep_codes (m_chars d) (m_words d) (fst masks) (snd masks) = trans_code t.
  (** an execution in which every transition is the predicted one *)
  Inductive predicted_run (tag_codes dep_codes : list nat) (d : mats V) : parse -> list trans -> parse -> Prop :=
  | prun_nil : forall p, predicted_run tag_codes dep_codes d p [] p
  | prun_cons : forall p t p' ts p'', p_complete p = false -> predicts tag_codes dep_codes d p t -> register_transition p t = Ok p' ->
      predicted_run tag_codes dep_codes d p' ts p'' -> predicted_run tag_codes dep_codes d p (t :: ts) p''.
  (** what the parser must return for one sentence *)
  Definition parsed (tokens : list str) (tags : list tag) (tree : option tree) : Prop :=
    exists d p0 ts p, vectorize_sentence V v0 U cs ws tokens = Ok d /\
      let tag_codes := ptags_model M (m_chars d) (m_words d) in
      let dep_codes := pdeps_model M tag_codes (m_chars d) (m_words d) in
      init_parse (m_length d) tag_codes dep_codes = Ok p0 /\
      predicted_run tag_codes dep_codes d p0 ts p /\ p_complete p = true /\ p_tags p = tags /\ build_tree p = Ok tree.
End Models.
