(** Specification vocabulary for the tokenizer. *)
From Coq Require Import Ascii String.
From Coq Require Import List NArith Arith Bool.
From Verif Require Import PyBase Regex.
Import ListNotations.
Local Open Scope nat_scope.

(** the words of a text: its longest parts without whitespace, in order *)
Inductive words_of (U : udb) : str -> list str -> Prop :=
| words_none s : (forall c, In c s -> u_space U c = true) -> words_of U s []
| words_next s w rest ws :
    (forall c, In c s -> u_space U c = true) -> w <> [] -> (forall c, In c w -> u_space U c = false) ->
    (forall c rest', rest = c :: rest' -> u_space U c = true) ->
    words_of U rest ws -> words_of U (s ++ w ++ rest) (w :: ws).

(** an ASCII letter or digit *)
Definition alnum (c : char) : Prop := (65 <= c <= 90 \/ 97 <= c <= 122 \/ 48 <= c <= 57)%N.
(** a word without its capitals *)
Definition uncapital (c : char) : char := if ((65 <=? c) && (c <=? 90))%N then (c + 32)%N else c.
Definition is_cannot (w : str) : Prop := map uncapital w = lit "cannot".
(** the tokens of plain words: only the word cannot is cut *)
Inductive plain_tokens : list str -> list str -> Prop :=
| pt_nil : plain_tokens [] []
| pt_word w ws ts : ~ is_cannot w -> plain_tokens ws ts -> plain_tokens (w :: ws) (w :: ts)
| pt_cannot can not ws ts : is_cannot (can ++ not) -> length can = 3 -> plain_tokens ws ts -> plain_tokens ((can ++ not) :: ws) (can :: not :: ts).

(** *** the content of a text *)
(** curly quotes and primes as straight quotes *)
Definition straight (c : char) : char :=
  if (c =? 8216)%N || (c =? 8217)%N || (c =? 8242)%N then 39%N
  else if (c =? 8220)%N || (c =? 8221)%N || (c =? 8243)%N then 34%N else c.
Definition is_dash (c : char) : bool := (c =? 8211)%N || (c =? 8212)%N.
(** a hyphen instead of each run of dashes *)
Fixpoint one_dash (s : str) : str :=
  match s with
  | [] => []
  | c :: s' =>
    if is_dash c then match s' with d :: _ => if is_dash d then one_dash s' else 45%N :: one_dash s' | [] => [45%N] end
    else c :: one_dash s'
  end.
(** a text without its whitespace *)
Definition visible (U : udb) (s : str) : str := filter (fun c => negb (u_space U c)) s.
Definition contains (part s : str) : Prop := exists x y, s = x ++ part ++ y.
(** the letter w, in any case, three times and a full stop *)
Definition www (U : udb) (s : str) : Prop := exists a b c, s = [a; b; c; 46%N] /\ Forall (fun x => In 119%N (u_variants U x)) [a; b; c].
(** a number (a digit, then digits, commas and full stops) and a quotation mark or prime *)
Definition number_quote (U : udb) (s : str) : Prop :=
  exists c m q, s = c :: m ++ [q] /\ u_digit U c = true /\ Forall (fun x => u_digit U x = true \/ x = 44%N \/ x = 46%N) m /\ (straight q = 39%N \/ straight q = 34%N).
(** no slash, no underscore, no address that begins with www, and no body of a placeholder of a symbol *)
Definition ordinary (U : udb) (text : str) : Prop :=
  ~ In 95%N text /\ ~ In 47%N text /\ (forall s, www U s -> ~ contains s text) /\
  ~ contains (lit "NSD") (visible U text) /\ ~ contains (lit "NSGE") (visible U text) /\ ~ contains (lit "NSLE") (visible U text).

(** *** what may change *)
(** a digit, then digits, commas and full stops *)
Definition numeral (U : udb) (n : str) : Prop :=
  exists c m, n = c :: m /\ u_digit U c = true /\ Forall (fun x => u_digit U x = true \/ x = 44%N \/ x = 46%N) m.
(** some feet and inches are spelled out and some runs of stars are cut to one star *)
Inductive adjusted (U : udb) : str -> str -> Prop :=
| ad_same s : adjusted U s s
| ad_feet n : numeral U n -> adjusted U (n ++ lit "'") (n ++ lit "ft")
| ad_inches n : numeral U n -> adjusted U (n ++ lit """") (n ++ lit "in")
| ad_stars k : adjusted U (repeat 42%N (S k)) (lit "*")
| ad_part a s t b : adjusted U s t -> adjusted U (a ++ s ++ b) (a ++ t ++ b)
| ad_then s t u : adjusted U s t -> adjusted U t u -> adjusted U s u.
