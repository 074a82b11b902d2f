(** Specification vocabulary: ordinary English text, and the tokens it is made of. *)
From Coq Require Import Ascii String.
From Coq Require Import List NArith Arith Bool.
From Verif Require Import PyBase Regex STok.
Import ListNotations.
Local Open Scope nat_scope.

Definition upper_case (c : char) : bool := ((65 <=? c) && (c <=? 90))%N.
Definition lower_case (c : char) : bool := ((97 <=? c) && (c <=? 122))%N.
Definition a_letter (c : char) : bool := upper_case c || lower_case c.
Definition a_digit (c : char) : bool := ((48 <=? c) && (c <=? 57))%N.
Definition letters (p : str) : Prop := p <> [] /\ Forall (fun c => a_letter c = true) p.
Definition digits (p : str) : Prop := p <> [] /\ Forall (fun c => a_digit c = true) p.
(** 7, 1,000 and 3.14 *)
Inductive number : str -> Prop :=
| number_int d : digits d -> number d
| number_sep d s n : digits d -> s = 44%N \/ s = 46%N -> number n -> number (d ++ s :: n).
(** the contracted words, in small letters *)
Definition contracted : list str := map lit ["n't"; "'re"; "'ll"; "'ve"; "'m"; "'d"; "'s"]%string.
(** the abbreviations that are written with a full stop before a name *)
Definition abbreviations : list str :=
  map lit ["m"; "mr"; "mrs"; "ms"; "sr"; "dr"; "prof"; "rev"; "gov"; "sen"; "rep"; "lt"; "sgt"; "ave"; "st"; "ed"; "feat"]%string.
Definition memb (s : str) (l : list str) : bool := if in_dec (list_eq_dec N.eq_dec) s l then true else false.

(** a web address: http:// or https:// or www. and then parts with points between them.  The parts are made of
    visible ASCII characters, without points, quotes or opening brackets. *)
Definition web_char (c : char) : bool := ((33 <=? c) && (c <=? 126))%N && negb (existsb (N.eqb c) (lit ".('") || (c =? 34)%N).
Definition web_part (p : str) : Prop := p <> [] /\ Forall (fun c => web_char c = true) p.
Definition inside (x s : str) : Prop := exists a b, s = a ++ x ++ b.
Definition address (u : str) : Prop :=
  (exists h p ps, In (map uncapital h) (map lit ["http://"; "https://"; "www."]%string) /\ web_part p /\ ps <> [] /\ Forall web_part ps /\
    u = h ++ p ++ flat_map (fun q => 46%N :: q) ps) /\ ~ inside (lit "_PROTECTED_") u.

(** what is written between two spaces: a word, a number, a word with a contracted word, words joined
    with hyphens, or a web address; then at most one punctuation mark *)
Inductive core := Plain (p : str) | Num (n : str) | Short (p c : str) | Hyph (q : list str) (p : str) | Web (u : str).
Record eword := EWord { e_core : core; e_mark : option char }.
Definition hyphens (q : list str) : str := flat_map (fun w => w ++ [45%N]) q.
Definition ctext (c : core) : str := match c with Plain p => p | Num n => n | Short p c => p ++ c | Hyph q p => hyphens q ++ p | Web u => u end.
Definition written (w : eword) : str := ctext (e_core w) ++ match e_mark w with Some m => [m] | None => [] end.
Definition core_ok (c : core) : Prop :=
  match c with
  | Plain p => letters p
  | Num n => number n
  | Short p c => letters p /\ ~ is_cannot p /\ In (map uncapital c) contracted
  | Hyph q p => q <> [] /\ Forall (fun w => letters w /\ ~ is_cannot w) q /\ letters p /\ ~ is_cannot p
  | Web u => address u
  end.

(** does a full stop after the word belong to the word? [next]: the first character of the next word *)
Definition abbreviated (c : core) : bool :=
  match c with Plain p | Hyph _ p => memb (map uncapital p) abbreviations | Num _ | Web _ => false | Short _ c => memb (map uncapital c) [lit "'m"] end.
Definition initial (c : core) : bool := match c with Plain [_] => true | _ => false end.
Definition dot_kept (c : core) (next : option char) : bool :=
  initial c || match next with None => false | Some d => negb (upper_case d) || abbreviated c end.

(** the first character of the next word; an address does not count *)
Definition next_char (ws : list eword) : option char :=
  match ws with [] | EWord (Web _) _ :: _ => None | w :: _ => hd_error (written w) end.
(** A full stop is not put after a number that has a point, nor after a contracted word when it would
    stay there, nor before a number that has its own full stop. *)
Definition stop_ok (c : core) (rest : list eword) : Prop :=
  match c with Plain _ | Hyph _ _ | Web _ => True | Num n => ~ In 46%N n | Short _ _ => dot_kept c (next_char rest) = false end /\
  match rest with EWord (Num _) (Some m) :: _ => m <> 46%N | _ => True end.
(** Only a full stop is put after an address: the other marks are read as a part of it. *)
Inductive english : list eword -> Prop :=
| english_nil : english []
| english_word c ws : core_ok c -> english ws -> english (EWord c None :: ws)
| english_mark c m ws : core_ok c -> (forall u, c <> Web u) -> In m (lit ",!?;:") -> english ws -> english (EWord c (Some m) :: ws)
| english_stop c ws : core_ok c -> stop_ok c ws -> english ws -> english (EWord c (Some 46%N) :: ws).

(** No address of the text is a part of another one. *)
Definition addresses (ws : list eword) : list str := flat_map (fun w => match e_core w with Web u => [u] | _ => [] end) ws.
Definition apart (ws : list eword) : Prop := forall u v, In u (addresses ws) -> In v (addresses ws) -> inside u v -> u = v.

(** *** the tokens *)
Definition core_tokens (c : core) : list str :=
  match c with
  | Plain p => if list_eq_dec N.eq_dec (map uncapital p) (lit "cannot") then [firstn 3 p; skipn 3 p] else [p]
  | Num n => [n]
  | Short p c => [p; c]
  | Hyph _ _ | Web _ => [ctext c]
  end.
Definition word_tokens (w : eword) (next : option char) : list str :=
  match e_mark w with
  | None => core_tokens (e_core w)
  | Some m => if (m =? 46)%N && dot_kept (e_core w) next then [written w] else core_tokens (e_core w) ++ [[m]]
  end.
Fixpoint english_tokens (ws : list eword) : list str :=
  match ws with [] => [] | w :: rest => word_tokens w (next_char rest) ++ english_tokens rest end.

(** *** the sentences: one ends after each word with ! or ? or a colon, or with a full stop that does not belong to the word *)
Definition ends_here (w : eword) (next : option char) : bool :=
  match e_mark w with
  | Some m => (m =? 33)%N || (m =? 63)%N || (m =? 58)%N || (m =? 46)%N && negb (dot_kept (e_core w) next)
  | None => false
  end.
Fixpoint english_sentences (ws : list eword) : list (list str) :=
  match ws with
  | [] => []
  | w :: rest =>
    let tokens := word_tokens w (next_char rest) in
    if ends_here w (next_char rest) then tokens :: english_sentences rest
    else match english_sentences rest with [] => [tokens] | s :: ss => (tokens ++ s) :: ss end
  end.
(** a line with nothing in it, at the start or at the end of the text, gives a sentence with one empty token *)
Definition line_sentences (ws : list eword) : list (list str) := match ws with [] => [[[]]] | _ => english_sentences ws end.
