(** Model of scrappybara/preprocessing/sentencizer.py. *)
From Coq Require Import Ascii String.
From Coq Require Import List NArith ZArith Arith Bool.
From Verif Require Import PyBase Regex MTokenizer.
Import ListNotations.
Local Open Scope nat_scope.

(** sentencizer.py:14-17: the four reserved characters *)
Definition quote_start : char := 3898%N.
Definition quote_end : char := 3899%N.
Definition bracket_start : char := 10629%N.
Definition bracket_end : char := 10630%N.
(** sentencizer.py:10-13, 18-21 *)
Definition re_newline : re := seqs [star sp; plus (Chr (cls [CRange 9 9; CRange 10 10; CRange 13 13])); star sp].  (* \s*[\t\n\r]+\s* *)
Definition re_quote : re := seqs [ch 34; Star false (Chr any_char); ch 34].                                       (* ".*?" *)
Definition re_bracket : re := seqs [ch 40; Star false (Chr any_char); ch 41].                                     (* \(.*?\) *)
Definition re_multi_spaces : re := plus sp.                                                                       (* \s+ *)
Definition re_sent_enders : re := Grp 1 (Alt (plus (Chr (cls (one ".?!:")))) (ch 182)).                           (* ([.?!:]+|¶) *)
Definition sz_sanitization : list rule := [ mk (seqs [dot; ch 34]) false [TLit [46; 34; 182]%N] ].                (* \." -> ."¶ *)

Section Sentencizer.
  Context (U : udb) (tokenize : str -> res (list str)).

  (** sentencizer.py:65-71, one turn of the loop of [__find_blocks]: [text], [shift] (which may be negative) and the recorded
      parts *)
  Definition find_turn (starter ender : char) (st : str * Z * list str) (m : str * nat * nat) : str * Z * list str :=
    let '(text, shift, ctr) := st in
    let '(quote, sidx, eidx) := m in
    let ctr := ctr ++ [slice (Some 1%Z) (Some (-1)%Z) quote] in
    let number := str_of_nat (length ctr - 1) in
    (slice None (Some (Z.of_nat sidx - shift)%Z) text ++ lit " " ++ [starter] ++ number ++ [ender] ++ lit " " ++ slice (Some (Z.of_nat eidx - shift)%Z) None text,
     (shift + (Z.of_nat (length quote) - 4 - Z.of_nat (length number)))%Z,
     ctr).
  (** sentencizer.py:64-72 [__find_blocks]: the new text and the list [ctr] after the call *)
  Definition find_blocks (pattern : re) (starter ender : char) (text : str) (ctr : list str) : str * list str :=
    let '(text, _, ctr) := fold_left (find_turn starter ender) (finditer U false pattern text) (text, 0%Z, ctr) in
    (sub U false re_multi_spaces [TLit (lit " ")] text, ctr).
  (** sentencizer.py:36-40: the list comprehensions that call [__find_blocks] on each block *)
  Fixpoint find_all (pattern : re) (starter ender : char) (blocks : list str) (ctr : list str) : list str * list str :=
    match blocks with
    | [] => ([], ctr)
    | b :: bs =>
      let '(b', ctr) := find_blocks pattern starter ender b ctr in
      let '(bs', ctr) := find_all pattern starter ender bs ctr in
      (b' :: bs', ctr)
    end.

  (** sentencizer.py:80-93 [__split_sentences] *)
  Definition is_ender (token : str) : bool := match fullmatch U false re_sent_enders token with Some _ => true | None => false end.
  Fixpoint split_loop (current : list str) (tokens : list str) : list (list str) :=
    match tokens with
    | [] => match current with [] => [] | _ => [current] end
    | token :: tokens' =>
      if is_ender token
      then (if str_eqb token [182%N] then current else current ++ [token]) :: split_loop [] tokens'
      else split_loop (current ++ [token]) tokens'
    end.
  Definition split_sentences (tokens : list str) : list (list str) := split_loop [] tokens.

  (** sentencizer.py:32-35 [_insert_quote_block]: what is added. int() of digits that are not ASCII is not modelled: it gives
      ValueError here *)
  Definition quote_block (quotes : list str) (token : str) : res (list str) :=
    let! idx := int_of_str (u_space U) (slice (Some 1%Z) (Some (-1)%Z) token) in
    let! quote := index quotes idx in
    let! tokens := tokenize quote in
    Ok ([[34%N]] ++ tokens ++ [[34%N]]).
  (** sentencizer.py:46-60: what is added for one token of a sentence *)
  Definition insert_blocks (quotes brackets : list str) (token : str) : res (list str) :=
    if startswith token [quote_start] then quote_block quotes token
    else if startswith token [bracket_start] then
      let! idx := int_of_str (u_space U) (slice (Some 1%Z) (Some (-1)%Z) token) in
      let! bracket := index brackets idx in
      let! nested := tokenize bracket in
      let! inside := mapM (fun t => if startswith t [quote_start] then quote_block quotes t else Ok [t]) nested in
      Ok ([[40%N]] ++ concat inside ++ [[41%N]])
    else Ok [token].
  (** sentencizer.py:27-62 [__call__] *)
  Definition sentencize (text : str) : res (list (list str)) :=
    let blocks := re_split U false re_newline text in
    let blocks := map (sanitize U sz_sanitization) blocks in
    let '(blocks, quotes) := find_all re_quote quote_start quote_end blocks [] in
    let '(blocks, brackets) := find_all re_bracket bracket_start bracket_end blocks [] in
    let! lists := mapM (fun block =>
        let! tokens := tokenize block in
        mapM (fun sent => let! parts := mapM (insert_blocks quotes brackets) sent in Ok (concat parts)) (split_sentences tokens)) blocks in
    Ok (concat lists).
End Sentencizer.
