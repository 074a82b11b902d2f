(** Conformance of the sentencizer model with the example of /repo/docs/sentencizer.md.
    Generated by tools/mkconf_sentencizer.py. These are tests of the model, not theorems about it. *)
From Coq Require Import List NArith Bool.
From Verif Require Import PyBase Regex MTokenizer MSentencizer.
Import ListNotations.
Local Open Scope N_scope.

Definition doc_text : str := [73; 32; 99; 97; 110; 110; 111; 116; 32; 115; 105; 110; 103; 32; 77; 114; 46; 32; 83; 109; 105; 116; 104; 39; 115; 32; 115; 111; 110; 103; 46; 32; 73; 116; 32; 105; 115; 32; 106; 97; 114; 103; 111; 110; 33].
Example doc_sentences : sentencize ascii_udb (tokenize ascii_udb) doc_text = Ok [[[73]; [99; 97; 110]; [110; 111; 116]; [115; 105; 110; 103]; [77; 114; 46]; [83; 109; 105; 116; 104]; [39; 115]; [115; 111; 110; 103]; [46]]; [[73; 116]; [105; 115]; [106; 97; 114; 103; 111; 110]; [33]]].
Proof. vm_compute. reflexivity. Qed.
