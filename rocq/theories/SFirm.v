(** Specification vocabulary: names of firms with an ampersand, such as R & D, A B & C and A & B C. *)
From Coq Require Import Ascii String.
From Coq Require Import List NArith Arith Bool.
From Verif Require Import PyBase Regex STok SEnglish.
Import ListNotations.

(** a word that is no single capital letter, an ampersand, a single capital letter, and the three kinds of names *)
Inductive item :=
| Word (p : str) | And | One (x : char)
| Two (x y : char) | Before (x y z : char) | After (x y z : char).
Definition capital (x : char) : Prop := upper_case x = true.
Definition item_ok (i : item) : Prop :=
  match i with
  | Word p => letters p /\ ~ is_cannot p /\ (forall x, p = [x] -> ~ capital x)
  | And => True
  | One x => capital x
  | Two x y => capital x /\ capital y
  | Before x y z | After x y z => capital x /\ capital y /\ capital z
  end.
(** After a single capital letter, and after a name, there is nothing or a word. *)
Definition followed (i : item) (rest : list item) : Prop :=
  match i with Word _ | And => True | _ => match rest with [] | Word _ :: _ => True | _ => False end end.
Inductive firm : list item -> Prop :=
| firm_nil : firm []
| firm_cons i rest : item_ok i -> followed i rest -> firm rest -> firm (i :: rest).

(** what is written, with spaces between the pieces *)
Definition pieces (i : item) : list str :=
  match i with
  | Word p => [p] | And => [lit "&"] | One x => [[x]]
  | Two x y => [[x]; lit "&"; [y]]
  | Before x y z => [[x]; [y]; lit "&"; [z]]
  | After x y z => [[x]; lit "&"; [y]; [z]]
  end.
(** the tokens: a name is one token *)
Definition token (i : item) : str :=
  match i with
  | Word p => p | And => lit "&" | One x => [x]
  | Two x y => [x] ++ lit "&" ++ [y]
  | Before x y z => [x; y] ++ lit "&" ++ [z]
  | After x y z => [x] ++ lit "&" ++ [y; z]
  end.
