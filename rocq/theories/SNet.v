(** Specification vocabulary for the networks: the sizes of their weights. *)
From Coq Require Import List NArith ZArith Arith Bool.
From Verif Require Import PyBase MBatch MNet.
Import ListNotations.
Local Open Scope nat_scope.

(** a vector for each of [n] characters, 17 tags and 25 dependencies; 128 filters for each of four windows; [out] classes *)
Record sized {F State} (n out : nat) (w : weights F State) : Prop := {
  z_chars : length (w_chars w) = n;
  z_convs : map (@length _) (w_convs w) = [128; 128; 128; 128];
  z_tags : length (w_tags w) = 17;
  z_deps : length (w_deps w) = 25;
  z_out : length (w_out w) = out
}.
