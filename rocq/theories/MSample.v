(** Model of the entry points that run the logic on a labelled sentence (pipeline/logic_pipeline.py). *)
From Coq Require Import Ascii String.
From Coq Require Import List NArith ZArith Arith Bool.
From Verif Require Import PyBase Regex MUtils MTree MNgram MLangModel MNormal MNode MSem MPipeline MLabelled MTrain.
Import ListNotations.

Section Sample.
  Context (U : udb) (P L : Type) (leL : L -> L -> bool) (zero : P) (ninf : L) (m : lm P L) (lx : lexicon) (nouns : list str).
  (** pipeline/logic_pipeline.py:74-77 [test_sample]. [nb_processes] is multiprocessing.cpu_count(), the default of
      [_logic_process] (logic_pipeline.py:43-44). A thread that raises gives nothing, and then [stuples] is empty. *)
  Definition test_sample (nb_processes : Z) (token_tuples : list named_tuple) : res (list stuple) :=
    let! sent := make_labelled_named token_tuples in
    let! (_, stuples) := logic_process_all U P L leL zero ninf (lm_tokenize U) m lx nouns
      [l_tokens sent] [l_tags sent] [l_tree sent] true nb_processes in
    index stuples 0.
End Sample.
