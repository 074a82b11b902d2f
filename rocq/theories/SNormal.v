(** What the normalization steps are expected to do, independently of how they do it. *)
From Coq Require Import Ascii String.
From Coq Require Import List NArith Arith Bool.
From Verif Require Import PyBase Regex MUtils MTree MNormal.
Import ListNotations.
Local Open Scope nat_scope.

(** ** Lemmas *)

(** C37: the suffixes a part of speech can have *)
Definition suffixes_of (t : tag) : list suffix :=
  match t with
  | VERB => [THIRD_PERSON; PAST; PROGRESSIVE]
  | NOUN => [PLURAL]
  | ADJ | ADV => [COMPARATIVE; SUPERLATIVE]
  | _ => []
  end.

(** C38: the fixed special forms *)
Definition special_forms : list (tag * string * string * option suffix) := [
  (VERB, "'m", "be", None); (VERB, "am", "be", None); (VERB, "'re", "be", None); (VERB, "are", "be", None);
  (VERB, "'s", "be", Some THIRD_PERSON); (VERB, "is", "be", Some THIRD_PERSON); (VERB, "being", "be", Some PROGRESSIVE);
  (VERB, "has", "have", Some THIRD_PERSON); (VERB, "doing", "do", Some PROGRESSIVE); (VERB, "need", "need", None);
  (ADJ, "better", "good", Some COMPARATIVE); (ADJ, "best", "good", Some SUPERLATIVE);
  (ADV, "better", "well", Some COMPARATIVE); (ADV, "best", "well", Some SUPERLATIVE); (ADV, "'", "'s", None);
  (SYM, "'s", "we", None); (SYM, "acumen", "acumen", None);
  (NOUN, "'s", "we", None); (PRON, "'s", "we", None); (PROPN, "'s", "we", None); (NUM, "'s", "we", None);
  (NOUN, "acumen", "acumen", None); (PRON, "acumen", "acumen", None); (PROPN, "acumen", "acumen", None); (NUM, "acumen", "acumen", None) ]%string.
Definition is_special (t : tag) (w l : str) (s : option suffix) : Prop :=
  exists form lemma, In (t, form, lemma, s) special_forms /\ w = lit form /\ l = lit lemma.
(** an entry of one of the irregular tables *)
Definition is_irregular (lx : lexicon) (t : tag) (w l : str) (s : option suffix) : Prop :=
  t = NOUN /\ In (w, l) (lx_plural lx) /\ s = Some PLURAL \/
  t = VERB /\ (In (w, l) (lx_pp lx) \/ In (w, l) (lx_preterit lx)) /\ s = Some PAST \/
  t = ADJ /\ In (w, l) (lx_comparative lx) /\ s = Some COMPARATIVE \/
  t = ADJ /\ In (w, l) (lx_superlative lx) /\ s = Some SUPERLATIVE.
(** a recognized prefix: one of the list, or everything up to a hyphen (45); or no prefix *)
Definition is_prefix (prefixes : list str) (p : str) : Prop := p = [] \/ In p prefixes \/ exists a, p = a ++ [45%N].
(** where a lemma comes from; [attested] says which words or pairs the language model knows *)
Inductive lemma_origin (sp : char -> bool) (lx : lexicon) (attested : str -> Prop) (t : tag) (w : str) : str -> option suffix -> Prop :=
| from_special l s : is_special t w l s -> lemma_origin sp lx attested t w l s
| from_table p b l s : is_prefix (lx_prefixes lx) p -> w = p ++ b -> is_irregular lx t b l s -> lemma_origin sp lx attested t w (p ++ l) s
| from_word p b r s : is_prefix (lx_prefixes lx) p -> w = p ++ r -> attested b -> lemma_origin sp lx attested t w (p ++ b) (Some s)
| from_pair p b r s x y before : is_prefix (lx_prefixes lx) p -> w = p ++ r -> attested (x ++ 32%N :: y) ->
    split_ws sp (x ++ 32%N :: y) = before ++ [b] -> lemma_origin sp lx attested t w (p ++ b) (Some s)
| unchanged : lemma_origin sp lx attested t w w None.

(** C71: regular inflections: part of speech, least length of the stem, ending, ending of the lemma, suffix *)
Definition inflections : list (tag * nat * string * string * suffix) := [
  (VERB, 3, "ing", "", PROGRESSIVE); (VERB, 3, "ing", "e", PROGRESSIVE);
  (VERB, 2, "ed", "", PAST); (VERB, 2, "ed", "e", PAST);
  (VERB, 2, "es", "", THIRD_PERSON); (VERB, 2, "es", "e", THIRD_PERSON); (VERB, 2, "s", "", THIRD_PERSON);
  (NOUN, 5, "a", "on", PLURAL); (NOUN, 4, "i", "us", PLURAL);
  (NOUN, 2, "ves", "f", PLURAL); (NOUN, 2, "ves", "fe", PLURAL); (NOUN, 2, "ves", "ve", PLURAL); (NOUN, 2, "men", "man", PLURAL);
  (NOUN, 2, "es", "", PLURAL); (NOUN, 2, "es", "e", PLURAL); (NOUN, 2, "es", "is", PLURAL); (NOUN, 2, "s", "", PLURAL);
  (ADJ, 3, "est", "", SUPERLATIVE); (ADJ, 3, "est", "e", SUPERLATIVE);
  (ADJ, 3, "er", "", COMPARATIVE); (ADJ, 3, "er", "e", COMPARATIVE) ]%string.
(** the same, for stems that end with a consonant *)
Definition consonant_inflections : list (tag * nat * string * string * suffix) := [
  (VERB, 2, "icking", "ic", PROGRESSIVE); (VERB, 2, "icked", "ic", PAST); (VERB, 2, "icks", "ic", THIRD_PERSON);
  (VERB, 2, "ied", "y", PAST); (VERB, 1, "ies", "y", THIRD_PERSON); (VERB, 1, "ies", "ie", THIRD_PERSON);
  (NOUN, 1, "ieves", "ief", PLURAL); (NOUN, 2, "ies", "y", PLURAL); (NOUN, 2, "ies", "ie", PLURAL);
  (ADJ, 2, "iest", "y", SUPERLATIVE); (ADJ, 2, "ier", "y", COMPARATIVE) ]%string.
(** endings before which a final consonant may be doubled *)
Definition doubling : list (tag * string * suffix) :=
  [(VERB, "ing", PROGRESSIVE); (VERB, "ed", PAST); (ADJ, "est", SUPERLATIVE); (ADJ, "er", COMPARATIVE)]%string.
Definition consonant (c : char) : Prop := In c (lit "qwrtpsdfghjklzxcvbnm").
Definition vowel (c : char) : Prop := In c (lit "eyuioa").
(** [inflected t w l s]: the word is the lemma with the regular inflection of that suffix *)
Inductive inflected (t : tag) (w : str) : str -> suffix -> Prop :=
| inflected_plain stem n old new s : In (t, n, old, new, s) inflections -> n <= length stem -> w = stem ++ lit old ->
    inflected t w (stem ++ lit new) s
| inflected_consonant stem c n old new s : In (t, n, old, new, s) consonant_inflections -> consonant c -> n <= length (stem ++ [c]) ->
    w = (stem ++ [c]) ++ lit old -> inflected t w ((stem ++ [c]) ++ lit new) s
| inflected_doubled stem v c old s : In (t, old, s) doubling -> vowel v -> consonant c ->
    w = stem ++ [v; c; c] ++ lit old -> inflected t w (stem ++ [v; c]) s.
(** the words that may precede the lemma in the pairs that attest it *)
Definition verb_subjects : list string := ["i"; "you"; "we"; "they"; "may"; "might"; "can"; "could"; "would"; "should"]%string.
Definition grounded (prefixes : list str) (attested : str -> Prop) (t : tag) (l : str) : Prop :=
  exists p b, is_prefix prefixes p /\ l = p ++ b /\
    (attested b \/ exists x, attested (x ++ 32%N :: b) /\ (t = VERB -> exists v, In v verb_subjects /\ x = lit v)).

(** C94: inflections that are not undone, because the word is read in another way. [known]: the words the language model
    has counted; [adjs]: the list of adjectives. After a consonant, these endings leave only these lemmas: *)
Definition only_lemmas : list (tag * nat * string * list string) := [
  (VERB, 2, "icking", ["ic"]); (VERB, 2, "icked", ["ic"]); (VERB, 2, "icks", ["ic"]); (VERB, 2, "ied", ["y"]); (VERB, 1, "ies", ["y"; "ie"]);
  (NOUN, 1, "ieves", ["ief"]); (NOUN, 2, "ies", ["y"; "ie"]); (ADJ, 2, "iest", ["y"]); (ADJ, 2, "ier", ["y"]) ]%string.
Inductive hidden (known : str -> Prop) (adjs : list str) (t : tag) (w l : str) : Prop :=
| hidden_ending n old news stem c : In (t, n, old, news) only_lemmas -> consonant c -> n <= length (stem ++ [c]) -> w = (stem ++ [c]) ++ lit old ->
    (forall new, In new news -> l <> (stem ++ [c]) ++ lit new) -> hidden known adjs t w l
(** "pelves" *)
| hidden_ves stem : t = NOUN -> 2 <= length stem -> w = stem ++ lit "ves" ->
    (forall new, In new ["f"; "fe"; "ve"]%string -> l <> stem ++ lit new) -> hidden known adjs t w l
(** "programmed" *)
| hidden_doubled stem v c old s : In (t, old, s) doubling -> stem <> [] -> vowel v -> consonant c -> w = stem ++ [v; c; c] ++ lit old ->
    l = stem ++ [v; c; c] ++ lit "e" -> hidden known adjs t w l
(** "upped" *)
| hidden_short v c old s : In (t, old, s) doubling -> vowel v -> consonant c -> w = [v; c; c] ++ lit old -> l = [v; c] -> hidden known adjs t w l
(** an adjective in -er of the list, but for a doubled consonant *)
| hidden_adj stem : t = ADJ -> w = stem ++ lit "er" -> In w adjs -> (l = stem \/ l = stem ++ lit "e") ->
    (forall x v c, x <> [] -> vowel v -> consonant c -> stem <> x ++ [v; c; c]) -> hidden known adjs t w l
(** a noun in -s, or whose plural looks like a word that has a plural in -es *)
| hidden_s : t = NOUN -> w = l ++ lit "s" -> (forall x, l = x ++ lit "e" -> length x < 2) ->
    (exists x, l = x ++ lit "s") \/ known (w ++ lit "es") -> hidden known adjs t w l.
(** the prefixes; and the prefix a word is read with: one of them when the word has no hyphen, everything up to the hyphen when it has one *)
Definition prefix_words : list string := ["re"; "un"; "mis"; "dis"; "out"; "co"; "sub"; "grand"]%string.
Definition reads_prefix (w p : str) : Prop :=
  ~ In 45%N w /\ (exists x, In x prefix_words /\ p = lit x) \/ exists a b, w = a ++ [45%N] ++ b /\ ~ In 45%N a /\ ~ In 45%N b /\ p = a ++ [45%N].
(** a word that ends no n-gram of the language model *)
Definition unheard (attested : str -> Prop) (x : str) : Prop := ~ attested x /\ forall y, ~ attested (y ++ 32%N :: x).

(** C39: the prefix set; [mem] gives all its orderings *)
Definition same_lexicon (a b : lexicon) : Prop :=
  lx_adjs a = lx_adjs b /\ lx_preterit a = lx_preterit b /\ lx_pp a = lx_pp b /\ lx_plural a = lx_plural b /\
  lx_comparative a = lx_comparative b /\ lx_superlative a = lx_superlative b /\ lx_lemma_pp a = lx_lemma_pp b.

(** ** Spelling *)
(** equality but for case *)
Definition same_ci (U : udb) (s x : str) : Prop := Forall2 (fun c d => In c (u_variants U d)) s x.
Definition one_of (U : udb) (l : list string) (x : str) : Prop := exists s, In s l /\ same_ci U (lit s) x.
(** C40: [respelled attested token r]: r is another spelling of the token; the spelling of the word it inflects, or of
    itself, is attested *)
Inductive respelled (U : udb) (attested : str -> Prop) (token : str) : str -> Prop :=
| respell_or start mid fin v : token = start ++ mid ++ fin -> 2 < length start ->
    one_of U ["our"; "or"]%string mid -> one_of U ["ing"; "ed"; "s"; ""]%string fin ->
    In v [lit "or"; lit "our"] -> attested (start ++ v) -> respelled U attested token (start ++ v ++ fin)
| respell_ize start mid fin c mid' v : token = start ++ mid ++ fin -> 2 < length start -> mid = c :: mid' ->
    one_of U ["ys"; "yz"; "is"; "iz"]%string mid ->
    one_of U ["ations"; "ation"; "ers"; "er"; "ing"; "ed"; "es"; "e"]%string fin ->
    In v [lit "z"; lit "s"] -> attested (start ++ [c] ++ v ++ lit "e") -> respelled U attested token (start ++ [c] ++ v ++ fin)
| respell_ce start mid fin v : token = start ++ mid ++ fin -> 2 < length start ->
    one_of U ["c"; "s"]%string mid -> one_of U ["ives"; "ive"; "es"; "e"]%string fin ->
    In v [lit "s"; lit "c"] -> attested (start ++ v ++ lit "e") -> respelled U attested token (start ++ v ++ fin)
| respell_ogue start mid fin v : token = start ++ mid ++ fin -> 2 < length start ->
    one_of U ["og"; "ogue"]%string mid -> one_of U ["s"; ""]%string fin ->
    In v [lit "og"; lit "ogue"] -> attested (start ++ v) -> respelled U attested token (start ++ v ++ fin)
| respell_ell start mid fin v : token = start ++ mid ++ fin -> 2 < length start ->
    one_of U ["el"; "ell"]%string mid -> one_of U ["ing"; "ers"; "ed"; "er"]%string fin ->
    In v [lit "el"; lit "ell"] -> attested (start ++ v ++ fin) -> respelled U attested token (start ++ v ++ fin)
| respell_digraph digraph : In digraph ["ae"; "oe"]%string -> 4 < length token ->
    attested (replace token (lit digraph) (lit "e")) -> respelled U attested token (replace token (lit digraph) (lit "e")).

(** ** Past participles (C41) *)
(** the spelling rules, for a lemma without irregular form; [prefers a b]: the language model prefers a to b *)
Inductive regular_participle (prefers : str -> str -> Prop) : str -> str -> Prop :=
| pp_e stem : regular_participle prefers (stem ++ lit "e") (stem ++ lit "ed")
| pp_y stem c : consonant c -> regular_participle prefers (stem ++ [c] ++ lit "y") (stem ++ [c] ++ lit "ied")
| pp_doubled stem v c : vowel v -> consonant c -> prefers (stem ++ [v; c; c] ++ lit "ed") (stem ++ [v; c] ++ lit "ed") ->
    regular_participle prefers (stem ++ [v; c]) (stem ++ [v; c; c] ++ lit "ed")
| pp_ed lemma : (forall stem, lemma <> stem ++ lit "e") -> (forall stem c, consonant c -> lemma <> stem ++ [c] ++ lit "y") ->
    (forall stem v c, vowel v -> consonant c -> lemma = stem ++ [v; c] -> ~ prefers (stem ++ [v; c; c] ++ lit "ed") (stem ++ [v; c] ++ lit "ed")) ->
    regular_participle prefers lemma (lemma ++ lit "ed").
