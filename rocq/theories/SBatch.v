(** Specification vocabulary for predictions: the most probable class, and networks whose answer for a sentence is its own. *)
From Coq Require Import List NArith ZArith Arith Bool.
From Verif Require Import PyBase Regex MUtils MTree MVector MParser MBatch.
Import ListNotations.
Local Open Scope nat_scope.

(** class [k] has the highest probability, and it is the first with it *)
Definition most_probable {F} (le : F -> F -> bool) (row : list F) (k : nat) : Prop :=
  exists p, nth_error row k = Some p /\
    (forall j q, nth_error row j = Some q -> le q p = true) /\ (forall j q, j < k -> nth_error row j = Some q -> le p q = false).

Section Rowwise.
  Context (V F : Type).
  (** what the networks say of one sentence *)
  Record sentence_networks := {
    one_tags : list (list nat) -> list (list V) -> list (list F);
    one_deps : list nat -> list (list nat) -> list (list V) -> list (list F);
    one_trans : list nat -> list nat -> list (list nat) -> list (list V) -> list bool -> list bool -> list F
  }.
  (** what the networks are asked about: 52 rows of 22 codes of characters, less than [n]; 52 word vectors of 100 numbers; 52 codes; 52
      truth values, one of them true *)
  Definition char_matrix (n : nat) (c : list (list nat)) : Prop := length c = 52 /\ Forall (fun r => length r = 22 /\ Forall (fun x => x < n) r) c.
  Definition word_matrix (w : list (list V)) : Prop := length w = 52 /\ Forall (fun r => length r = 100) w.
  Definition code_row (n : nat) (t : list nat) : Prop := length t = 52 /\ Forall (fun x => x < n) t.
  Definition one_true (m : list bool) : Prop := exists i, i < 52 /\ m = repeat false i ++ [true] ++ repeat false (51 - i).
  (** 52 rows of 17 probabilities, 52 rows of 25, one row of 4 *)
  Record shapes_ok (S : sentence_networks) : Prop := {
    sh_tags : forall c w, length (one_tags S c w) = 52 /\ Forall (fun r => length r = 17) (one_tags S c w);
    sh_deps : forall t c w, length (one_deps S t c w) = 52 /\ Forall (fun r => length r = 25) (one_deps S t c w);
    sh_trans : forall t d c w m1 m2, length (one_trans S t d c w m1 m2) = 4
  }.
  (** the answer for a batch is made of the answers for its sentences, whenever the batch has some sentence and its matrices are as they should *)
  Record rowwise (n : nat) (N : networks V F) (S : sentence_networks) : Prop := {
    row_tags : forall (l : list (list (list nat) * list (list V))), l <> [] ->
      Forall (fun '(c, w) => char_matrix n c /\ word_matrix w) l ->
      net_tags N (map fst l) (map snd l) = Ok (map (fun '(c, w) => one_tags S c w) l);
    row_deps : forall (l : list (list nat * list (list nat) * list (list V))), l <> [] ->
      Forall (fun '(t, c, w) => code_row 17 t /\ char_matrix n c /\ word_matrix w) l ->
      net_deps N (map (fun '(t, c, w) => t) l) (map (fun '(t, c, w) => c) l) (map (fun '(t, c, w) => w) l) = Ok (map (fun '(t, c, w) => one_deps S t c w) l);
    row_trans : forall (l : list (list nat * list nat * list (list nat) * list (list V) * list bool * list bool)), l <> [] ->
      Forall (fun '(t, d, c, w, m1, m2) => code_row 17 t /\ code_row 25 d /\ char_matrix n c /\ word_matrix w /\ one_true m1 /\ one_true m2) l ->
      net_trans N (map (fun '(t, d, c, w, m1, m2) => t) l) (map (fun '(t, d, c, w, m1, m2) => d) l) (map (fun '(t, d, c, w, m1, m2) => c) l)
                  (map (fun '(t, d, c, w, m1, m2) => w) l) (map (fun '(t, d, c, w, m1, m2) => m1) l) (map (fun '(t, d, c, w, m1, m2) => m2) l)
      = Ok (map (fun '(t, d, c, w, m1, m2) => one_trans S t d c w m1 m2) l)
  }.
  (** the class numpy picks in a row *)
  Definition picked (le : F -> F -> bool) (row : list F) : nat := match argmax le row with Ok k => k | Err _ => 0 end.
  (** the predictions for one sentence *)
  Definition models_of (le : F -> F -> bool) (S : sentence_networks) : models V := {|
    ptags_model := fun c w => map (picked le) (one_tags S c w);
    pdeps_model := fun t c w => map (picked le) (one_deps S t c w);
    trans_model := fun t d c w m1 m2 => picked le (one_trans S t d c w m1 m2)
  |}.
End Rowwise.
Arguments word_matrix {V} w.
Arguments one_tags {V F} s.
Arguments one_deps {V F} s.
Arguments one_trans {V F} s.

(** the models that predict, for each row of a sentence, its most probable class *)
Record picks {V F} (le : F -> F -> bool) (S : sentence_networks V F) (M : models V) : Prop := {
  pick_tags : forall c w, Forall2 (most_probable le) (one_tags S c w) (ptags_model M c w);
  pick_deps : forall t c w, Forall2 (most_probable le) (one_deps S t c w) (pdeps_model M t c w);
  pick_trans : forall t d c w m1 m2, most_probable le (one_trans S t d c w m1 m2) (trans_model M t d c w m1 m2)
}.
