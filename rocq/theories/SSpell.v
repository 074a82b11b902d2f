(** Specification of the spelling chosen by the standardizer (C95). *)
From Coq Require Import Ascii String.
From Coq Require Import List NArith ZArith Arith Bool.
From Verif Require Import PyBase Regex SNormal.
Import ListNotations.
Local Open Scope nat_scope.

(** [x] is one of the words, but for case *)
Definition reads (x : str) (l : list string) : Prop := exists s, In s l /\ map ascii_lower x = lit s.
(** the beginning of a word: at least three letters *)
Definition beginning (x : str) : Prop := 3 <= length x /\ Forall (fun c => is_letter c = true) x.
(** "ae" (or "oe") becomes "e" *)
Fixpoint simple (a : char) (s : str) : str :=
  match s with
  | c :: ((d :: r) as s') => if N.eqb c a && N.eqb d 101%N then 101%N :: simple a r else c :: simple a s'
  | _ => s
  end.
(** The families of words with two spellings. For each spelling: the word that is looked up in the language model, and what the token
    becomes if this one is chosen. *)
Inductive family (token : str) : nat -> list (str * str) -> Prop :=
| fam_color start mid fin : token = start ++ mid ++ fin -> beginning start -> reads mid ["our"; "or"]%string -> reads fin ["ing"; "ed"; "s"; ""]%string ->
    family token 1 [(start ++ lit "or", start ++ lit "or" ++ fin); (start ++ lit "our", start ++ lit "our" ++ fin)]
| fam_analyze start c z fin : token = start ++ [c] ++ [z] ++ fin -> beginning start -> reads [c] ["y"; "i"]%string -> reads [z] ["z"; "s"]%string ->
    reads fin ["ations"; "ation"; "ers"; "er"; "ing"; "ed"; "es"; "e"]%string ->
    family token 2 [(start ++ [c] ++ lit "ze", start ++ [c] ++ lit "z" ++ fin); (start ++ [c] ++ lit "se", start ++ [c] ++ lit "s" ++ fin)]
| fam_defense start z fin : token = start ++ [z] ++ fin -> beginning start -> reads [z] ["s"; "c"]%string -> reads fin ["ives"; "ive"; "es"; "e"]%string ->
    family token 3 [(start ++ lit "se", start ++ lit "s" ++ fin); (start ++ lit "ce", start ++ lit "c" ++ fin)]
| fam_catalog start mid fin : token = start ++ mid ++ fin -> beginning start -> reads mid ["og"; "ogue"]%string -> reads fin ["s"; ""]%string ->
    family token 4 [(start ++ lit "og", start ++ lit "og" ++ fin); (start ++ lit "ogue", start ++ lit "ogue" ++ fin)]
| fam_travel start mid fin : token = start ++ mid ++ fin -> beginning start -> reads mid ["el"; "ell"]%string -> reads fin ["ing"; "ers"; "ed"; "er"]%string ->
    family token 5 [(start ++ lit "el" ++ fin, start ++ lit "el" ++ fin); (start ++ lit "ell" ++ fin, start ++ lit "ell" ++ fin)]
| fam_ae : 5 <= length token -> (exists a b, token = a ++ lit "ae" ++ b) -> family token 6 [(simple 97%N token, simple 97%N token); (token, token)]
| fam_oe : 5 <= length token -> (exists a b, token = a ++ lit "oe" ++ b) -> family token 7 [(simple 111%N token, simple 111%N token); (token, token)].

(** the result for the most likely spelling, the first one of those; it must be attested *)
Definition preferred {L} (le : L -> L -> bool) (attested : str -> Prop) (likelihood : str -> L) (spellings : list (str * str)) (r : str) : Prop :=
  exists before x after, spellings = before ++ (x, r) :: after /\ attested x /\
    (forall y, In y spellings -> le (likelihood (fst y)) (likelihood x) = true) /\
    (forall y, In y before -> le (likelihood x) (likelihood (fst y)) = false).
(** the first family with an attested spelling decides; without any the token stays *)
Definition silent (attested : str -> Prop) (token : str) (k : nat) : Prop := forall spellings x, family token k spellings -> In x spellings -> ~ attested (fst x).
Inductive spelled {L} (le : L -> L -> bool) (attested : str -> Prop) (likelihood : str -> L) (token : str) : str -> Prop :=
| spelled_family k spellings r : family token k spellings -> preferred le attested likelihood spellings r -> (forall j, j < k -> silent attested token j) ->
    spelled le attested likelihood token r
| spelled_same : (forall k, silent attested token k) -> spelled le attested likelihood token token.
