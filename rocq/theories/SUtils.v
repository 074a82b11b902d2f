(** Specifications for the properties of scrappybara/utils, independent of the model's helpers. *)
From Coq Require Import List NArith ZArith QArith Qround Arith Bool.
From Verif Require Import PyBase.
Import ListNotations.
Local Open Scope nat_scope.

(** Number of False values. *)
Definition count_false (l : list bool) : nat := length (filter negb l).

(** The distinct elements of a list in order of first occurrence. *)
Fixpoint firsts {K} (eqb : K -> K -> bool) (l : list K) : list K :=
  match l with
  | [] => []
  | x :: l' => x :: filter (fun y => negb (eqb x y)) (firsts eqb l')
  end.

(** The values paired with a key, in order. *)
Definition values_of {K V} (eqb : K -> K -> bool) (k : K) (l : list (K * V)) : list V :=
  map snd (filter (fun p => eqb k (fst p)) l).

(** A character occurs exactly once. *)
Definition occurs_once (c : char) (s : str) : Prop := exists a b, s = a ++ c :: b /\ ~ In c a /\ ~ In c b.

(** [z] in base ten, without leading zero: the value of a string of ASCII digits. *)
Fixpoint dec_value (s : str) (acc : Z) : option Z :=
  match s with
  | [] => Some acc
  | c :: s' => if ((48 <=? c) && (c <=? 57))%N then dec_value s' (acc * 10 + (Z.of_N c - 48))%Z else None
  end.

(** A string made of ASCII letters only, at least one. *)
Definition ascii_letters (s : str) : Prop :=
  s <> [] /\ Forall (fun c => (97 <= c <= 122 \/ 65 <= c <= 90)%N) s.
Definition ascii_lowercase_letters (s : str) : Prop := s <> [] /\ Forall (fun c => (97 <= c <= 122)%N) s.

(** [s] is a time of [t] seconds written h:mm:ss. *)
Definition displays (s : str) (t : Q) : Prop :=
  exists a b c h mn sec, s = a ++ 58%N :: b ++ 58%N :: c /\
    dec_value a 0 = Some h /\ dec_value b 0 = Some mn /\ dec_value c 0 = Some sec /\
    length b = 2 /\ length c = 2 /\
    (0 <= h /\ 0 <= mn < 60 /\ 0 <= sec < 60 /\ 3600 * h + 60 * mn + sec = Qround.Qfloor t)%Z.

(** Sum of a function over 0 .. n-1. *)
Fixpoint qsum (n : nat) (f : nat -> Q) : Q := match n with O => 0%Q | S k => (qsum k f + f k)%Q end.
