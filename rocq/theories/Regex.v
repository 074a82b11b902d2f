(** Model of the part of Python's [re] module used by /repo: a backtracking matcher.
    Sources of the semantics: CPython's documentation of [re] and Modules/_sre.c.
    Patterns are trees; the pattern compiler itself is not modelled, each pattern of /repo is
    transcribed by hand next to a comment that quotes it. *)
From Coq Require Import Ascii String.
From Coq Require Import List NArith ZArith Arith Bool Lia.
From Verif Require Import PyBase.
Import ListNotations.

(** ** Unicode character database: the only facts about characters the code depends on *)
Record udb := {
  u_space : char -> bool;        (* str.isspace, also \s and str.split() *)
  u_digit : char -> bool;        (* \d *)
  u_word : char -> bool;         (* \w *)
  u_variants : char -> list char;(* characters equal to it under re.IGNORECASE, itself included *)
  u_lower : char -> str          (* str.lower, character by character (final sigma not modelled) *)
}.

Definition is_upper (c : char) : bool := ((65 <=? c) && (c <=? 90))%N.
Definition is_lower (c : char) : bool := ((97 <=? c) && (c <=? 122))%N.
Definition is_digit (c : char) : bool := ((48 <=? c) && (c <=? 57))%N.
Definition is_letter (c : char) : bool := is_upper c || is_lower c.
Definition ascii_space (c : char) : bool :=
  ((9 <=? c) && (c <=? 13) || (28 <=? c) && (c <=? 32))%N.
Definition ascii_word (c : char) : bool := is_letter c || is_digit c || N.eqb c 95.
Definition ascii_swap (c : char) : char :=
  if is_upper c then (c + 32)%N else if is_lower c then (c - 32)%N else c.
Definition ascii_lower (c : char) : char := if is_upper c then (c + 32)%N else c.

(** Non-ASCII symbols that occur literally in the code of /repo: all are punctuation or symbols. *)
Definition code_symbols : list char :=
  [3898; 3899; 10629; 10630; 182; 8226; 8216; 8217; 8242; 8220; 8221; 8243; 8211; 8212; 8230; 449; 187; 8224; 8225]%N.

(** What is assumed of the Unicode database: Python's one satisfies it. *)
Record udb_ok (U : udb) : Prop := {
  ok_space : forall c, (c < 128)%N -> u_space U c = ascii_space c;
  ok_digit : forall c, (c < 128)%N -> u_digit U c = is_digit c;
  ok_word : forall c, (c < 128)%N -> u_word U c = ascii_word c;
  ok_space_word : forall c, u_space U c = true -> u_word U c = false;
  ok_digit_word : forall c, u_digit U c = true -> u_word U c = true;
  ok_var_self : forall c, In c (u_variants U c);
  ok_var_swap : forall c, (c < 128)%N -> In (ascii_swap c) (u_variants U c);
  (* a case variant that is an ASCII character is the character itself or a letter *)
  ok_var_ascii : forall c d, In d (u_variants U c) -> (d < 128)%N -> d = c \/ is_letter d = true;
  (* the ASCII case variants of an ASCII character are itself and its other case *)
  ok_var_letter : forall c d, (c < 128)%N -> In d (u_variants U c) -> (d < 128)%N -> d = c \/ d = ascii_swap c;
  ok_lower_ascii : forall c, (c < 128)%N -> u_lower U c = [ascii_lower c];
  ok_lower_space : forall c d, In d (u_lower U c) -> u_space U d = u_space U c;
  ok_lower_nonempty : forall c, u_lower U c <> [];
  ok_symbols : forall c d, In c code_symbols -> In d (u_variants U c) \/ In c (u_variants U d) -> d = c;
  ok_symbols_space : forall c, In c code_symbols -> u_space U c = false;
  ok_symbols_digit : forall c, In c code_symbols -> u_digit U c = false;
  (* a case variant of a whitespace character is a whitespace character, and the converse *)
  ok_var_space : forall c d, In d (u_variants U c) -> u_space U d = u_space U c
}.

(** str.lower() *)
Definition lower (U : udb) (s : str) : str := flat_map (u_lower U) s.

(** ** Patterns *)

Inductive citem := CRange (lo hi : char) | CSpace | CDigit | CWord.
Arguments CRange (lo hi)%N_scope.
Record cset := { cs_neg : bool; cs_items : list citem }.

Inductive re :=
| Eps
| Chr (cs : cset)
| Seq (a b : re)
| Alt (a b : re)
| Star (greedy : bool) (r : re)
| Grp (n : nat) (r : re)
| Look (positive : bool) (r : re)           (* (?=r), (?!r) *)
| Behind (positive : bool) (l : list cset)  (* (?<=..), (?<!..): the characters just before, in text order *)
| Bound (positive : bool)                   (* \b, and (?<!\b) / (?!\b) as negated boundary *)
| Bol                                       (* ^ *)
| Eol.                                      (* $ *)

Section Matcher.
  Context (U : udb) (ic : bool).   (* ic: re.IGNORECASE *)

  (** Under re.IGNORECASE a range matches the case variants of its members; categories are not
      affected by case. *)
  Definition citem_match (c : char) (i : citem) : bool :=
    match i with
    | CRange lo hi => existsb (fun d => (lo <=? d) && (d <=? hi))%N (if ic then u_variants U c else [c])
    | CSpace => u_space U c
    | CDigit => u_digit U c
    | CWord => u_word U c
    end.

  Definition cset_match (cs : cset) (c : char) : bool :=
    xorb (cs_neg cs) (existsb (citem_match c) (cs_items cs)).

  (** Matcher state: text before the position (reversed), text after it, captured groups
      (latest capture first). *)
  Record mst := { bef : str; aft : str; caps : list (nat * str) }.

  Definition at_word_boundary (b a : str) : bool :=
    match b, a with
    | [], [] => false
    | _, _ => xorb (match b with c :: _ => u_word U c | [] => false end)
                   (match a with c :: _ => u_word U c | [] => false end)
    end.

  Fixpoint behind_match (l : list cset) (b : str) : bool :=  (* l and b both reversed *)
    match l, b with
    | [], _ => true
    | cs :: l', c :: b' => cset_match cs c && behind_match l' b'
    | _ :: _, [] => false
    end.

  (** Text consumed between two states. *)
  Definition consumed (st st' : mst) : str :=
    rev (firstn (length (bef st') - length (bef st)) (bef st')).

  (** The matcher, in continuation-passing style: alternatives are tried in Python's order and the
      first one for which the continuation succeeds wins. A repetition must make progress at each
      iteration; its fuel, the length of the remaining text, is therefore always enough. *)
  Fixpoint m (r : re) (st : mst) (k : mst -> option mst) {struct r} : option mst :=
    match r with
    | Eps => k st
    | Chr cs =>
      match aft st with
      | c :: a => if cset_match cs c then k {| bef := c :: bef st; aft := a; caps := caps st |} else None
      | [] => None
      end
    | Seq r1 r2 => m r1 st (fun st' => m r2 st' k)
    | Alt r1 r2 => match m r1 st k with Some x => Some x | None => m r2 st k end
    | Star g r1 =>
      (fix loop (fuel : nat) (st0 : mst) : option mst :=
         match fuel with
         | O => k st0
         | S f =>
           if g then
             match m r1 st0 (fun st' => if (length (aft st') <? length (aft st0))%nat then loop f st' else None) with
             | Some x => Some x
             | None => k st0
             end
           else
             match k st0 with
             | Some x => Some x
             | None => m r1 st0 (fun st' => if (length (aft st') <? length (aft st0))%nat then loop f st' else None)
             end
         end) (length (aft st)) st
    | Grp n r1 =>
      m r1 st (fun st' => k {| bef := bef st'; aft := aft st'; caps := (n, consumed st st') :: caps st' |})
    | Look pos r1 =>
      match m r1 st (fun st' => Some st') with
      | Some st' => if pos then k {| bef := bef st; aft := aft st; caps := caps st' |} else None
      | None => if pos then None else k st
      end
    | Behind pos l => if Bool.eqb pos (behind_match (rev l) (bef st)) then k st else None
    | Bound pos => if Bool.eqb pos (at_word_boundary (bef st) (aft st)) then k st else None
    | Bol => match bef st with [] => k st | _ => None end
    | Eol => match aft st with [] => k st | [c] => if N.eqb c 10 then k st else None | _ => None end
    end.

  (** Match of [r] starting exactly at a position. *)
  Definition match_at (r : re) (b a : str) : option mst :=
    m r {| bef := b; aft := a; caps := [] |} Some.

  (** re.fullmatch: backtracks until the match ends at the end of the text. *)
  Definition fullmatch (r : re) (s : str) : option mst :=
    m r {| bef := []; aft := s; caps := [] |} (fun st => match aft st with [] => Some st | _ => None end).

  (** re.search from a position: leftmost match; returns the text before the match (reversed). *)
  Fixpoint search_from (r : re) (b a : str) : option (str * mst) :=
    match match_at r b a with
    | Some st => Some (b, st)
    | None => match a with [] => None | c :: a' => search_from r (c :: b) a' end
    end.
  Definition search (r : re) (s : str) : option (str * mst) := search_from r [] s.

  (** match.group(): the text consumed by a match that started after [b]. *)
  Definition matched (b : str) (st : mst) : str := rev (firstn (length (bef st) - length b) (bef st)).

  (** match.group(n); an unmatched group is the empty string in a template. *)
  Definition group (st : mst) (n : nat) : str :=
    match dget Nat.eqb n (caps st) with Some s => s | None => [] end.

  (** Replacement templates: literal text and \g<n> references (\g<0> is the whole match). *)
  Inductive titem := TLit (s : str) | TGrp (n : nat).
  Definition template := list titem.
  Definition expand (t : template) (whole : str) (st : mst) : str :=
    flat_map (fun i => match i with TLit s => s | TGrp O => whole | TGrp n => group st n end) t.

  (** All matches from left to right, without overlap, as finditer returns them, for patterns whose
      matches are not empty: (text before, match state). After an empty match, which no pattern of
      /repo has, one character is skipped. The fuel is one more than the length of the text. *)
  Fixpoint pieces_fuel (fuel : nat) (r : re) (b a : str) (cur : str) : list (str * (str * mst)) * str :=
    (* returns for each match (text since the previous match, (matched text, state)), and the tail *)
    match fuel with
    | O => ([], rev cur ++ a)
    | S f =>
      match match_at r b a with
      | Some st =>
        if (length (aft st) <? length a)%nat then
          let '(ps, tl) := pieces_fuel f r (bef st) (aft st) [] in
          ((rev cur, (matched b st, st)) :: ps, tl)
        else
          match a with
          | [] => ([(rev cur, ([], st))], [])
          | c :: a' => let '(ps, tl) := pieces_fuel f r (c :: b) a' [c] in
                       ((rev cur, ([], st)) :: ps, tl)
          end
      | None =>
        match a with
        | [] => ([], rev cur)
        | c :: a' => pieces_fuel f r (c :: b) a' (c :: cur)
        end
      end
    end.
  Definition pieces (r : re) (s : str) := pieces_fuel (S (length s)) r [] s [].

  (** re.sub(pattern, template, s) *)
  Definition sub (r : re) (t : template) (s : str) : str :=
    let '(ps, tl) := pieces r s in
    flat_map (fun p => fst p ++ expand t (fst (snd p)) (snd (snd p))) ps ++ tl.

  (** re.split(pattern, s), for a pattern without groups. *)
  Definition re_split (r : re) (s : str) : list str :=
    let '(ps, tl) := pieces r s in map fst ps ++ [tl].

  (** re.finditer(pattern, s) as a list of (m.group(), m.start(), m.end()). *)
  Fixpoint iter_positions (off : nat) (ps : list (str * (str * mst))) : list (str * nat * nat) :=
    match ps with
    | [] => []
    | (pre, (w, _)) :: ps' =>
      let s := (off + length pre)%nat in
      let e := (s + length w)%nat in
      (w, s, e) :: iter_positions e ps'
    end.
  Definition finditer (r : re) (s : str) : list (str * nat * nat) :=
    iter_positions 0 (fst (pieces r s)).
End Matcher.

(** ** Pattern-building shorthands *)
Definition cc (c : char) : cset := {| cs_neg := false; cs_items := [CRange c c] |}.
Arguments cc c%N_scope.
Definition ch (c : char) : re := Chr (cc c).
Arguments ch c%N_scope.
Definition cls (l : list citem) : cset := {| cs_neg := false; cs_items := l |}.
Definition ncls (l : list citem) : cset := {| cs_neg := true; cs_items := l |}.
Definition one (a : string) : list citem := map (fun c => CRange c c) (lit a).
Definition az : citem := CRange 97 122.
Definition AZ : citem := CRange 65 90.
Definition d09 : citem := CRange 48 57.
Definition any_char : cset := ncls [CRange 10 10].          (* . without DOTALL *)
Fixpoint word (s : str) : re := match s with [] => Eps | [c] => ch c | c :: s' => Seq (ch c) (word s') end.
Definition w (s : string) : re := word (lit s).
Fixpoint seqs (l : list re) : re := match l with [] => Eps | [r] => r | r :: l' => Seq r (seqs l') end.
Fixpoint alts (l : list re) : re := match l with [] => Eps | [r] => r | r :: l' => Alt r (alts l') end.
Definition star (r : re) := Star true r.
Definition plus (r : re) := Seq r (Star true r).
Definition opt (r : re) := Alt r Eps.
Definition two_plus (r : re) := Seq r (Seq r (Star true r)).       (* r{2,} *)
Definition three_plus (r : re) := Seq r (Seq r (Seq r (Star true r))). (* r{3,} *)

(** A concrete database for computations: exact on ASCII; the other characters are neither spaces,
    digits nor letters, except the usual Unicode spaces. *)
Definition ascii_udb : udb := {|
  u_space := fun c => if (c <? 128)%N then ascii_space c
                      else existsb (N.eqb c) [133; 160; 5760; 8192; 8193; 8194; 8195; 8196; 8197; 8198; 8199;
                                              8200; 8201; 8202; 8232; 8233; 8239; 8287; 12288]%N;
  u_digit := fun c => is_digit c;
  u_word := fun c => ascii_word c;
  u_variants := fun c => if is_letter c then [c; ascii_swap c] else [c];
  u_lower := fun c => [ascii_lower c]
|}.
