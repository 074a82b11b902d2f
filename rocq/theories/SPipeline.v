(** Specification vocabulary for the pipeline. *)
From Coq Require Import Ascii String.
From Coq Require Import List NArith ZArith Arith Bool.
From Verif Require Import PyBase Regex MUtils MTree MVector MParser MNgram MLangModel MNormal MNode MSem MPipeline SParser.
Import ListNotations.
Local Open Scope nat_scope.

(** the tokens at which an over-long sentence is cut; 34 is the code of the double quote *)
Definition splitter (token : str) : Prop :=
  token = [34%N] \/ In token (map lit [":"; ";"; "("; ")"; "["; "]"; "{"; "}"; "-"]%string).
(** [maximal_runs cut l rs]: [rs] are the maximal stretches of [l] without an item satisfying [cut], in order *)
Inductive maximal_runs {A} (cut : A -> Prop) : list A -> list (list A) -> Prop :=
| runs_end : maximal_runs cut [] []
| runs_cut : forall x l rs, cut x -> maximal_runs cut l rs -> maximal_runs cut (x :: l) rs
| runs_run : forall r l rs, r <> [] -> Forall (fun x => ~ cut x) r -> (l = [] \/ exists x l', l = x :: l' /\ cut x) ->
    maximal_runs cut l rs -> maximal_runs cut (r ++ l) (r :: rs).
(** what becomes of one sentence *)
Inductive resplit (tokens : list str) : list (list str) -> Prop :=
| resplit_short : length tokens <= 50 -> resplit tokens [tokens]
| resplit_long : forall runs, 50 < length tokens -> maximal_runs splitter tokens runs ->
    resplit tokens (filter (fun r => length r <=? 50) runs).

(** a string with something else than whitespace *)
Definition nonblank (U : udb) (x : str) : Prop := exists c, In c x /\ u_space U c = false.

Section Doc.
  Context (V : Type) (v0 : V) (U : udb) (M : models V) (cs : charset) (ws : wordset V).
  Context (P L : Type) (leL : L -> L -> bool) (zero : P) (ninf : L) (m : lm P L) (lx : lexicon) (nouns : list str).
  Context (sentencize : str -> res (list (list str))).
  (** the tuples of one sentence: those the logic extracts from its parse *)
  Definition sentence_of (chunk : bool) (tokens : list str) (s : sentence) : Prop :=
    exists tags tree h R d, parsed V v0 U M cs ws tokens tags tree /\
      logic_process U P L leL zero ninf (lm_tokenize U) m lx nouns tokens tags tree chunk = Ok (h, R, d, s).
  (** the document of one text: its sentences, re-split, one after the other *)
  Definition document_of (chunk : bool) (text : str) (doc : document) : Prop :=
    exists sents, sentencize text = Ok sents /\ Forall2 (sentence_of chunk) (split_tokens sents) doc.
End Doc.
