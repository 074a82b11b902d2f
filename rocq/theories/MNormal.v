(** Model of scrappybara/normalization: suffixes.py, lemmatizer.py, standardizer.py, inflector.py. The Canonicalizer, which
    works on nodes, is in MNode.v. *)
From Coq Require Import Ascii String.
From Coq Require Import List NArith ZArith Arith Bool.
From Verif Require Import PyBase Regex MUtils MTree MNgram MLangModel.
Import ListNotations.
Local Open Scope nat_scope.

(** suffixes.py:4-24 [Suffix] *)
Inductive suffix : Set := THIRD_PERSON | PAST | PROGRESSIVE | PLURAL | COMPARATIVE | SUPERLATIVE.
Definition suffix_eq_dec (a b : suffix) : {a = b} + {a <> b}.
Proof. decide equality. Defined.

(** The dictionaries and sets given to the Lemmatizer: lemmatizer.py:22-31. [lx_prefixes] is the set __prefixes of
    lemmatizer.py:10-15 in its iteration order, which changes from one run of Python to the next. *)
Record lexicon := {
  lx_adjs : list str;
  lx_preterit : dict str str;
  lx_pp : dict str str;
  lx_plural : dict str str;
  lx_comparative : dict str str;
  lx_superlative : dict str str;
  lx_lemma_pp : dict str str;
  lx_prefixes : list str
}.
(** lemmatizer.py:10-15 [__prefixes] *)
Definition PREFIXES : list str := map lit ["re"; "un"; "mis"; "dis"; "out"; "co"; "sub"; "grand"]%string.

Section Normal.
  Context (U : udb) (P L : Type) (leL : L -> L -> bool) (zero : P) (ninf : L) (tokenize : option str -> res (list str)).
  Context (m : lm P L).
  Notation best_ngram := (best_ngram P L leL zero ninf m).
  (** has_ngram(ngram, min_count=1) *)
  Notation has_ngram := (has_ngram P L zero ninf m).

  (** * lemmatizer.py *)
  Section Lemmatizer.
    Context (lx : lexicon).
    (** what the lemmatizer returns: lemma and suffix or None *)
    Definition lemma_result := (str * option suffix)%type.

    (** lemmatizer.py:37-71: full matches. [None] when there is none. *)
    Definition full_match (word : str) (t : tag) : option lemma_result :=
      let is s := str_eqb word (lit s) in
      match t with
      | VERB =>
        if is "'m"%string || is "am"%string || is "'re"%string || is "are"%string then Some (lit "be", None)
        else if is "'s"%string || is "is"%string then Some (lit "be", Some THIRD_PERSON)
        else if is "being"%string then Some (lit "be", Some PROGRESSIVE)
        else if is "has"%string then Some (lit "have", Some THIRD_PERSON)
        else if is "doing"%string then Some (lit "do", Some PROGRESSIVE)
        else if is "need"%string then Some (word, None)
        else None
      | ADJ =>
        if is "better"%string then Some (lit "good", Some COMPARATIVE)
        else if is "best"%string then Some (lit "good", Some SUPERLATIVE)
        else None
      | ADV =>
        if is "better"%string then Some (lit "well", Some COMPARATIVE)
        else if is "best"%string then Some (lit "well", Some SUPERLATIVE)
        else if is "'"%string then Some (lit "'s", None)
        else None
      | _ =>
        if tag_in t NOUN_TAGS then
          if is "'s"%string then Some (lit "we", None)
          else if is "acumen"%string then Some (word, None)
          else None
        else None
      end.

    (** lemmatizer.py:254-271 [__irregular_lemma] *)
    Definition irregular_lemma (word : str) (t : tag) : option lemma_result :=
      let find d s := match dget str_eqb word d with Some l => Some (l, Some s) | None => None end in
      match t with
      | NOUN => find (lx_plural lx) PLURAL
      | VERB => match find (lx_pp lx) PAST with Some r => Some r | None => find (lx_preterit lx) PAST end
      | ADJ => match find (lx_comparative lx) COMPARATIVE with Some r => Some r | None => find (lx_superlative lx) SUPERLATIVE end
      | _ => None
      end.

    Definition verb_contexts : list str :=
      map lit ["i"; "you"; "we"; "they"; "may"; "might"; "can"; "could"; "would"; "should"]%string.
    (** lemmatizer.py:235-252 [__best_candidate] *)
    Definition best_candidate (stem : str) (endings : list str) (t : tag) : res (option str) :=
      match endings with
      | [e] => Ok (if has_ngram (stem ++ e) 1 then Some (stem ++ e) else None)
      | _ =>
        let candidates := map (fun e => stem ++ e) endings in
        let tokens_before := match t with VERB => verb_contexts | _ => candidates end in
        let! best := best_ngram (flat_map (fun c => map (fun t => join (lit " ") [t; c]) tokens_before) candidates) in
        match best with
        | Some b => let! l := index (split_ws (u_space U) b) (-1) in Ok (Some l)
        | None => best_ngram candidates
        end
      end.

    (** lemmatizer.py:89-102 [_lm_lemma] *)
    Definition lm_lemma (word : str) (t : tag) (start : str) (endings : list str) (s : suffix) : res lemma_result :=
      let! best := best_candidate start endings t in
      match best with
      | Some b => Ok (b, Some s)
      | None =>
        match token_prefix start (lx_prefixes lx) with
        | Some (prefix, base) =>
          let! best := best_candidate base endings t in
          match best with
          | Some b => Ok (prefix ++ b, Some s)
          | None => Ok (word, None)
          end
        | None => Ok (word, None)
        end
      end.

    (** The rules of lemmatizer.py:104-230 are tried in order. A rule that does not return gives [None]. *)
    Definition rule_result := res (option lemma_result).
    Definition some_res {A} (r : res A) : res (option A) := let! x := r in Ok (Some x).
    (** the pattern of most rules: token_start(word, ending, n), then something on the start *)
    Definition on_start (word ending : str) (n : nat) (f : str -> rule_result) : rule_result :=
      match token_start word ending n with Some start => f start | None => Ok None end.
    Fixpoint first_rule (rules : list (unit -> rule_result)) (default : lemma_result) : res lemma_result :=
      match rules with
      | [] => Ok default
      | r :: rules' => let! x := r tt in match x with Some y => Ok y | None => first_rule rules' default end
      end.
    (** if ends_with_consonant(start): return _lm_lemma(start, endings, suffix) *)
    Definition after_consonant (word : str) (t : tag) (endings : list str) (s : suffix) (start : str) : rule_result :=
      let! c := ends_with_consonant start in
      if c then some_res (lm_lemma word t start endings s) else Ok None.
    (** endings = vowel_double_consonant_endings(start); if endings is not None: return _lm_lemma(start[:-2], endings, suffix) *)
    Definition doubled (word : str) (t : tag) (s : suffix) (start : str) : rule_result :=
      match vowel_double_consonant_endings start with
      | Some endings => some_res (lm_lemma word t (slice None (Some (-2)%Z) start) endings s)
      | None => Ok None
      end.
    (** return _lm_lemma(start[:-1], [start[-1] + e for e in more], suffix) *)
    Definition last_kept (word : str) (t : tag) (more : list str) (s : suffix) (start : str) : rule_result :=
      let! c := index start (-1) in
      some_res (lm_lemma word t (slice None (Some (-1)%Z) start) (map (fun e => c :: e) more) s).
    (** return _lm_lemma(start, endings, suffix) *)
    Definition plain (word : str) (t : tag) (endings : list str) (s : suffix) (start : str) : rule_result :=
      some_res (lm_lemma word t start endings s).
    Definition e_or_nothing : list str := [[]; lit "e"].

    (** lemmatizer.py:107-139: adjectives *)
    Definition adj_rules (word : str) : list (unit -> rule_result) := [
      (fun _ => on_start word (lit "est") 4 (doubled word ADJ SUPERLATIVE));
      (fun _ => on_start word (lit "er") 4 (doubled word ADJ COMPARATIVE));
      (fun _ => on_start word (lit "iest") 2 (after_consonant word ADJ [lit "y"] SUPERLATIVE));
      (fun _ => on_start word (lit "est") 3 (last_kept word ADJ e_or_nothing SUPERLATIVE));
      (fun _ => on_start word (lit "ier") 2 (after_consonant word ADJ [lit "y"] COMPARATIVE));
      (fun _ => on_start word (lit "er") 3 (fun start =>
         if str_in word (lx_adjs lx) then Ok None else last_kept word ADJ e_or_nothing COMPARATIVE start)) ].
    (** lemmatizer.py:144-191: verbs *)
    Definition verb_rules (word : str) : list (unit -> rule_result) := [
      (fun _ => on_start word (lit "icking") 2 (after_consonant word VERB [lit "ic"] PROGRESSIVE));
      (fun _ => on_start word (lit "icked") 2 (after_consonant word VERB [lit "ic"] PAST));
      (fun _ => on_start word (lit "ing") 4 (doubled word VERB PROGRESSIVE));
      (fun _ => on_start word (lit "ing") 3 (last_kept word VERB e_or_nothing PROGRESSIVE));
      (fun _ => on_start word (lit "icks") 2 (after_consonant word VERB [lit "ic"] THIRD_PERSON));
      (fun _ => on_start word (lit "ed") 4 (doubled word VERB PAST));
      (fun _ => on_start word (lit "ied") 2 (after_consonant word VERB [lit "y"] PAST));
      (fun _ => on_start word (lit "ies") 1 (after_consonant word VERB [lit "y"; lit "ie"] THIRD_PERSON));
      (fun _ => on_start word (lit "ed") 2 (last_kept word VERB e_or_nothing PAST));
      (fun _ => on_start word (lit "es") 2 (last_kept word VERB e_or_nothing THIRD_PERSON));
      (fun _ => on_start word (lit "s") 2 (last_kept word VERB [[]] THIRD_PERSON)) ].
    (** lemmatizer.py:196-230: nouns *)
    Definition noun_rules (word : str) : list (unit -> rule_result) := [
      (fun _ => on_start word (lit "a") 5 (plain word NOUN [lit "on"] PLURAL));
      (fun _ => on_start word (lit "ieves") 1 (after_consonant word NOUN [lit "ief"] PLURAL));
      (fun _ => on_start word (lit "i") 4 (plain word NOUN [lit "us"] PLURAL));
      (fun _ => on_start word (lit "ies") 2 (after_consonant word NOUN [lit "y"; lit "ie"] PLURAL));
      (fun _ => on_start word (lit "ves") 2 (plain word NOUN [lit "f"; lit "fe"; lit "ve"] PLURAL));
      (fun _ => on_start word (lit "men") 2 (plain word NOUN [lit "man"] PLURAL));
      (fun _ => on_start word (lit "es") 2 (last_kept word NOUN [[]; lit "e"; lit "is"] PLURAL));
      (fun _ => on_start word (lit "s") 2 (fun start =>
         if endswith word (lit "ss") || has_ngram (word ++ lit "es") 1 then Ok None else last_kept word NOUN [[]] PLURAL start)) ].

    (** lemmatizer.py:33-233 [__call__] *)
    Definition lemmatize (word : str) (t : tag) : res lemma_result :=
      let word := lower U word in
      match full_match word t with
      | Some r => Ok r
      | None =>
        match irregular_lemma word t with
        | Some r => Ok r
        | None =>
          let prefixed :=
            match token_prefix word (lx_prefixes lx) with
            | Some (prefix, base) =>
              match irregular_lemma base t with Some (l, s) => Some (prefix ++ l, s) | None => None end
            | None => None
            end in
          match prefixed with
          | Some r => Ok r
          | None =>
            match t with
            | ADJ => first_rule (adj_rules word) (word, None)
            | VERB => first_rule (verb_rules word) (word, None)
            | NOUN => first_rule (noun_rules word) (word, None)
            | _ => Ok (word, None)
            end
          end
        end
      end.
  End Lemmatizer.

  (** * standardizer.py *)
  (** standardizer.py:9: the pattern ([a-z]+)(middles)(endings), with re.I *)
  Definition split_pattern (middles endings : list str) : re :=
    seqs [Grp 1 (plus (Chr (cls [az]))); Grp 2 (alts (map word middles)); Grp 3 (alts (map word endings))].
  (** standardizer.py:4-15 [_split_token] *)
  Definition split_token (token : str) (middles endings : list str) : option (str * str * str) :=
    match fullmatch U true (split_pattern middles endings) token with
    | Some st => if 1 <? length (group st 1) then Some (group st 1, group st 2, group st 3) else None
    | None => None
    end.
  (** One spelling rule: [best] proposes the spellings for a start of more than 2 letters, [finish] makes the result
      of the chosen one. [None] when the rule does not return. *)
  Definition spelling_rule (token : str) (middles endings : list str) (variants : str -> str -> str -> res (list str))
      (finish : str -> str -> str) : res (option str) :=
    match split_token token middles endings with
    | Some (start, mid, fin) =>
      if 2 <? length start then
        let! vs := variants start mid fin in
        let! best := best_ngram vs in
        match best with Some b => Ok (Some (finish b fin)) | None => Ok None end
      else Ok None
    | None => Ok None
    end.
  (** if len(token) > 4 and token.find(digraph) > -1 *)
  Definition digraph_rule (token digraph : str) : res (option str) :=
    if (4 <? length token) && contains digraph token then best_ngram [replace token digraph (lit "e"); token] else Ok None.
  Definition lits (l : list string) : list str := map lit l.
  (** standardizer.py:27-78: the rules in order *)
  Definition std_rules (token : str) : list (unit -> res (option str)) := [
    (fun _ => spelling_rule token (lits ["our"; "or"]%string) (lits ["ing"; "ed"; "s"; ""]%string)
       (fun start _ _ => Ok [start ++ lit "or"; start ++ lit "our"]) (fun b fin => b ++ fin));
    (fun _ => spelling_rule token (lits ["ys"; "yz"; "is"; "iz"]%string) (lits ["ations"; "ation"; "ers"; "er"; "ing"; "ed"; "es"; "e"]%string)
       (fun start mid _ => let! c := index mid 0 in Ok [start ++ [c] ++ lit "ze"; start ++ [c] ++ lit "se"])
       (fun b fin => slice None (Some (-1)%Z) b ++ fin));
    (fun _ => spelling_rule token (lits ["c"; "s"]%string) (lits ["ives"; "ive"; "es"; "e"]%string)
       (fun start _ _ => Ok [start ++ lit "se"; start ++ lit "ce"]) (fun b fin => slice None (Some (-1)%Z) b ++ fin));
    (fun _ => spelling_rule token (lits ["og"; "ogue"]%string) (lits ["s"; ""]%string)
       (fun start _ _ => Ok [start ++ lit "og"; start ++ lit "ogue"]) (fun b fin => b ++ fin));
    (fun _ => spelling_rule token (lits ["el"; "ell"]%string) (lits ["ing"; "ers"; "ed"; "er"]%string)
       (fun start _ fin => Ok [start ++ lit "el" ++ fin; start ++ lit "ell" ++ fin]) (fun b _ => b));
    (fun _ => digraph_rule token (lit "ae"));
    (fun _ => digraph_rule token (lit "oe")) ].
  Fixpoint first_spelling (rules : list (unit -> res (option str))) (token : str) : res str :=
    match rules with
    | [] => Ok token
    | r :: rules' => let! x := r tt in match x with Some y => Ok y | None => first_spelling rules' token end
    end.
  (** standardizer.py:23-79 [__call__] *)
  Definition standardize (token : str) : res str :=
    if has_ngram token 5 then Ok token else first_spelling (std_rules token) token.

  (** * inflector.py *)
  (** inflector.py:10-29 [past_participle] *)
  Definition past_participle (lemma_pp : dict str str) (lemma : str) : res str :=
    match dget str_eqb lemma lemma_pp with
    | Some p => Ok p
    | None =>
      let n := length lemma in
      let! special :=
        (if 2 <? n then
           let! c3 := index lemma (-3) in
           if char_in c3 CONSONANTS && endswith lemma (lit "ie") then Ok (Some (lemma ++ lit "d")) else Ok None
         else Ok None) in
      match special with
      | Some r => Ok r
      | None =>
        if 1 <? n then
          let! c2 := index lemma (-2) in
          let! c1 := index lemma (-1) in
          if char_in c2 CONSONANTS && N.eqb c1 121%N then Ok (slice None (Some (-1)%Z) lemma ++ lit "ied")
          else if char_in c2 CONSONANTS && endswith lemma (lit "e") then Ok (lemma ++ lit "d")
          else if char_in c2 VOWELS && char_in c1 CONSONANTS then
            let! best := best_token P L leL zero ninf tokenize m [lemma ++ lit "ed"; lemma ++ [c1] ++ lit "ed"] None None in
            (* the empty string is falsy *)
            match best with Some (c :: b) => Ok (c :: b) | _ => Ok (lemma ++ lit "ed") end
          else Ok (lemma ++ lit "ed")
        else Ok (lemma ++ lit "ed")
      end
    end.
End Normal.
