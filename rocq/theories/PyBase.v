(** Python runtime vocabulary shared by all model files.
    Nothing here models a particular file of /repo: these are the semantics of the Python builtins
    that the modelled code uses (lists, slices, strings, dictionaries, exceptions, sorting). *)
From Coq Require Import Ascii String.
From Coq Require Import List NArith ZArith Arith Bool Lia.
Import ListNotations.
Open Scope list_scope.

(** ** Exceptions as values *)

Inductive exn : Set :=
| IndexError | KeyError | ValueError | TypeError | AssertionError | ZeroDivisionError
| ArgumentValueError            (* scrappybara/exceptions.py:4 *)
| SentenceTooLongError          (* scrappybara/syntax/training_samples.py:49 *)
| MKNNotEnoughDataError         (* scrappybara/langmodel/mkn_smoother.py:10 *)
| MKNMinOrderError              (* scrappybara/langmodel/language_model_builder.py:13 *)
| OutOfFuel.                    (* artefact of the model: a loop did not end within its fuel *)

Inductive res (A : Type) : Type := Ok (a : A) | Err (e : exn).
Arguments Ok {A} a.
Arguments Err {A} e.

Definition rbind {A B} (r : res A) (f : A -> res B) : res B :=
  match r with Ok a => f a | Err e => Err e end.
Notation "'let!' x := e 'in' f" := (rbind e (fun x => f))
  (at level 200, x pattern, e at level 100, f at level 200, right associativity).

Definition is_ok {A} (r : res A) : bool := match r with Ok _ => true | Err _ => false end.

(** List comprehension [f(x) for x in l] where [f] may raise: stops at the first exception. *)
Fixpoint mapM {A B} (f : A -> res B) (l : list A) : res (list B) :=
  match l with
  | [] => Ok []
  | x :: l' => let! y := f x in let! ys := mapM f l' in Ok (y :: ys)
  end.

(** A for loop threading a state. *)
Fixpoint foldM {A S} (f : S -> A -> res S) (s : S) (l : list A) : res S :=
  match l with
  | [] => Ok s
  | x :: l' => let! s' := f s x in foldM f s' l'
  end.

Definition of_option {A} (e : exn) (o : option A) : res A :=
  match o with Some a => Ok a | None => Err e end.

(** ** Lists: indexing and slicing with Python's negative indexes *)

(** Normalisation of a slice bound: negative bounds count from the end, then clamp to [0, len]. *)
Definition clamp (len z : Z) : nat :=
  let z' := (if z <? 0 then z + len else z)%Z in
  Z.to_nat (Z.max 0 (Z.min len z')).

(** l[a:b]; [None] is an omitted bound. *)
Definition slice {A} (a b : option Z) (l : list A) : list A :=
  let len := Z.of_nat (length l) in
  let i := match a with Some z => clamp len z | None => 0%nat end in
  let j := match b with Some z => clamp len z | None => length l end in
  firstn (j - i) (skipn i l).

(** l[z]; raises IndexError. *)
Definition index {A} (l : list A) (z : Z) : res A :=
  let len := Z.of_nat (length l) in
  let z' := (if z <? 0 then z + len else z)%Z in
  if ((z' <? 0) || (len <=? z'))%Z then Err IndexError
  else of_option IndexError (nth_error l (Z.to_nat z')).

(** enumerate(l) *)
Fixpoint enum_from {A} (n : nat) (l : list A) : list (nat * A) :=
  match l with [] => [] | x :: l' => (n, x) :: enum_from (S n) l' end.
Definition enumerate {A} (l : list A) := enum_from 0 l.

(** ** Strings: lists of Unicode code points *)

Definition char := N.
Definition str := list N.

(** ASCII literals. *)
Fixpoint lit (s : string) : str :=
  match s with EmptyString => [] | String a r => N_of_ascii a :: lit r end.

Fixpoint list_eqb {A} (eqb : A -> A -> bool) (l1 l2 : list A) : bool :=
  match l1, l2 with
  | [], [] => true
  | x :: l1', y :: l2' => eqb x y && list_eqb eqb l1' l2'
  | _, _ => false
  end.
Definition str_eqb : str -> str -> bool := list_eqb N.eqb.

Definition str_in (s : str) (l : list str) : bool := existsb (str_eqb s) l.

(** If [s] starts with [p], the rest of [s]. *)
Fixpoint strip_prefix (p s : str) : option str :=
  match p, s with
  | [], _ => Some s
  | a :: p', b :: s' => if N.eqb a b then strip_prefix p' s' else None
  | _ :: _, [] => None
  end.
Definition startswith (s p : str) : bool :=
  match strip_prefix p s with Some _ => true | None => false end.
Definition endswith (s e : str) : bool := startswith (rev s) (rev e).

(** [sub in s] for strings. *)
Fixpoint contains (sub s : str) : bool :=
  startswith s sub || match s with [] => false | _ :: s' => contains sub s' end.

(** s.replace(old, new) for a non-empty [old]: leftmost, non-overlapping occurrences.
    The fuel is the length of the text, which is always enough (each step consumes a character). *)
Fixpoint replace_fuel (n : nat) (old new s : str) : str :=
  match n with
  | O => s
  | S n' =>
    match s with
    | [] => []
    | c :: s' =>
      match strip_prefix old s with
      | Some rest => new ++ replace_fuel n' old new rest
      | None => c :: replace_fuel n' old new s'
      end
    end
  end.
Definition replace (s old new : str) : str := replace_fuel (length s) old new s.

(** sep.join(l) *)
Fixpoint join (sep : str) (l : list str) : str :=
  match l with
  | [] => []
  | [x] => x
  | x :: l' => x ++ sep ++ join sep l'
  end.

(** s.split() given the whitespace predicate. [cur] is the current word, reversed. *)
Fixpoint split_ws_aux (sp : char -> bool) (cur : str) (s : str) : list str :=
  match s with
  | [] => match cur with [] => [] | _ => [rev cur] end
  | c :: s' =>
    if sp c then
      match cur with [] => split_ws_aux sp [] s' | _ => rev cur :: split_ws_aux sp [] s' end
    else split_ws_aux sp (c :: cur) s'
  end.
Definition split_ws (sp : char -> bool) (s : str) : list str := split_ws_aux sp [] s.

(** s.split(sep) for a one-character separator. *)
Fixpoint split_chr (sep : char) (s : str) : list str :=
  match s with
  | [] => [[]]
  | c :: s' =>
    if N.eqb c sep then [] :: split_chr sep s'
    else match split_chr sep s' with
         | [] => [[c]]                      (* unreachable: split_chr never returns [] *)
         | w :: ws => (c :: w) :: ws
         end
  end.

(** s.strip() *)
Fixpoint lstrip (sp : char -> bool) (s : str) : str :=
  match s with
  | [] => []
  | c :: s' => if sp c then lstrip sp s' else s
  end.
Definition strip (sp : char -> bool) (s : str) : str := rev (lstrip sp (rev (lstrip sp s))).

(** str(n) for a natural number. The fuel bounds the number of digits. *)
Fixpoint dec_fuel (f : nat) (n : nat) (acc : str) : str :=
  match f with
  | O => acc
  | S f' =>
    let acc' := (48 + N.of_nat (n mod 10))%N :: acc in
    if (n / 10 =? 0)%nat then acc' else dec_fuel f' (n / 10) acc'
  end.
Definition str_of_nat (n : nat) : str := dec_fuel (S n) n [].

(** int(s) for a string: surrounding whitespace, one sign, ASCII digits with single underscores
    between digits.  Simplification: non-ASCII decimal digits are rejected. *)
Definition digit_val (c : char) : option Z :=
  if ((48 <=? c) && (c <=? 57))%N then Some (Z.of_N c - 48)%Z else None.
Fixpoint int_digits (s : str) (acc : Z) : option Z :=
  match s with
  | [] => Some acc
  | c :: s' =>
    match digit_val c with
    | Some d => int_digits s' (acc * 10 + d)%Z
    | None =>
      if N.eqb c 95 then
        match s' with
        | c' :: s'' => match digit_val c' with
                       | Some d => int_digits s'' (acc * 10 + d)%Z
                       | None => None
                       end
        | [] => None
        end
      else None
    end
  end.
Definition int_unsigned (s : str) : option Z :=
  match s with
  | c :: s' => match digit_val c with Some d => int_digits s' d | None => None end
  | [] => None
  end.
Definition int_of_str (sp : char -> bool) (s : str) : res Z :=
  of_option ValueError
    match strip sp s with
    | c :: s' =>
      if N.eqb c 45 then option_map Z.opp (int_unsigned s')
      else if N.eqb c 43 then int_unsigned s'
      else int_unsigned (c :: s')
    | [] => None
    end.

(** ** Dictionaries: insertion-ordered association lists *)

Section Dict.
  Context {K V : Type} (eqb : K -> K -> bool).
  Definition dict := list (K * V).
  Fixpoint dget (k : K) (d : list (K * V)) : option V :=
    match d with
    | [] => None
    | (k', v) :: d' => if eqb k k' then Some v else dget k d'
    end.
  Definition dmem (k : K) (d : list (K * V)) : bool :=
    match dget k d with Some _ => true | None => false end.
  (** d[k] = v: in place when the key exists, at the end otherwise. *)
  Fixpoint dset (k : K) (v : V) (d : list (K * V)) : list (K * V) :=
    match d with
    | [] => [(k, v)]
    | (k', v') :: d' => if eqb k k' then (k', v) :: d' else (k', v') :: dset k v d'
    end.
End Dict.
Arguments dict K V : clear implicits.

Definition dkeys {K V} (d : list (K * V)) : list K := map fst d.
Definition dvalues {K V} (d : list (K * V)) : list V := map snd d.

(** ** Stable sorting: list.sort / sorted.
    [isort le l] is the stable insertion sort of [l]: [x] precedes [y] when [le x y] and they were in
    that order.  For reverse=True, [le x y] is "key x >= key y": Python keeps the original order of
    equal elements also when reversing. *)
Fixpoint insert {A} (le : A -> A -> bool) (x : A) (l : list A) : list A :=
  match l with
  | [] => [x]
  | y :: l' => if le x y then x :: l else y :: insert le x l'
  end.
Definition isort {A} (le : A -> A -> bool) (l : list A) : list A := fold_right (insert le) [] l.
