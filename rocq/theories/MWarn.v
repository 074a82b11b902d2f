(** Model of the warnings of syntax/labelled_data.py and of json.dumps on them. *)
From Coq Require Import Ascii String.
From Coq Require Import List NArith ZArith Arith Bool.
From Verif Require Import PyBase Regex MUtils MBuilder.
Import ListNotations.
Local Open Scope nat_scope.

(** The values that reach json.dumps; the integer keys of the dictionary of warnings are given as the strings json makes of them *)
Inductive json : Type :=
| JInt (z : Z)
| JStr (s : str)
| JList (l : list json)
| JObj (members : list (str * json)).

(** int.__repr__ *)
Definition int_repr (z : Z) : str :=
  let a := Z.abs z in
  let digits := digits_Z (S (Z.to_nat (Z.log2_up (a + 1)))) a in
  if (z <? 0)%Z then 45%N :: digits else digits.
(** json's encoding of strings with ensure_ascii=False (py_encode_basestring of the standard library): quotation mark, backslash and control
    characters are escaped *)
Definition hex_digit (n : N) : char := if (n <? 10)%N then (48 + n)%N else (87 + n)%N.
Definition escape (c : char) : str :=
  if N.eqb c 34 then [92; 34]%N
  else if N.eqb c 92 then [92; 92]%N
  else if N.eqb c 10 then [92; 110]%N
  else if N.eqb c 13 then [92; 114]%N
  else if N.eqb c 9 then [92; 116]%N
  else if N.eqb c 12 then [92; 102]%N
  else if N.eqb c 8 then [92; 98]%N
  else if (c <? 32)%N then [92; 117; 48; 48; hex_digit (c / 16); hex_digit (c mod 16)]%N
  else [c].
Definition quote (s : str) : str := [34%N] ++ flat_map escape s ++ [34%N].
(** json.dumps with the default separators *)
Fixpoint dumps (v : json) : str :=
  match v with
  | JInt z => int_repr z
  | JStr s => quote s
  | JList l => lit "[" ++ join (lit ", ") (map dumps l) ++ lit "]"
  | JObj members => lit "{" ++ join (lit ", ") (map (fun '(k, x) => quote k ++ lit ": " ++ dumps x) members) ++ lit "}"
  end.

(** Token idx => warnings, each a comment and indexes. The list of indexes is a value here: that a caller changes the list later is not modelled. *)
Definition warnings := dict Z (list (str * list Z)).
(** syntax/labelled_data.py:125-127 [register_warning] *)
Definition register_warning (w : warnings) (token_idx : Z) (comment : str) (focus_idxs : list Z) : warnings :=
  append_to_dict_list Z.eqb w token_idx (comment, focus_idxs).
Definition warning_json (w : str * list Z) : json := JObj [(lit "comment", JStr (fst w)); (lit "focusIdxs", JList (map JInt (snd w)))].
(** syntax/labelled_data.py:129-134 [warnings_json] *)
Definition warnings_json (w : warnings) : option str :=
  match w with
  | [] => None
  | _ => Some (dumps (JObj (map (fun '(k, l) => (int_repr k, JList (map warning_json l))) w)))
  end.
