"""Generates rocq/theories/ConfNormal.v from the expectations of tests/test_lemmatizer.py, test_standardizer.py and
test_inflector.py, read as text (the tests are not run). The language model of these tests also needs bigrams, which are not
in the repository: the model below has the unigrams of data/langmodel/1_grams.txt that begin like a word of the tests."""
import os
import re

HERE = os.path.dirname(os.path.abspath(__file__))
OUT = os.path.join(HERE, '..', 'rocq', 'theories', 'ConfNormal.v')
DATA = '/repo/scrappybara/data/'


def lit(s):
    assert all(ord(c) < 128 for c in s)
    return 'lit "%s"' % s.replace('"', '""')


def dct(name):
    out = []
    for line in open(DATA + 'english/' + name, encoding='utf-8'):
        k, v = line.strip().split('\t')
        out.append((k, v))
    return out


def lst(name):
    return [line.strip() for line in open(DATA + 'english/' + name, encoding='utf-8')]


src = open('/repo/tests/test_lemmatizer.py').read()
lem = re.findall(r"lemma, suffix = _LEMMATIZE\((['\"].*?['\"]), Tag\.(\w+)\)\s+self\.assertEqual\((['\"].*?['\"]), lemma\)"
                 r"(?:\s+self\.assertEqual\((\S+), suffix\))?", src)
assert len(lem) == src.count('_LEMMATIZE(')
lem = [(eval(w), t, eval(l), s) for w, t, l, s in lem]
src = open('/repo/tests/test_standardizer.py').read()
std = re.findall(r"assertEqual\('(\w+)', _STANDARDIZE\('(\w+)'\)\)", src)
assert len(std) == src.count('_STANDARDIZE(')
src = open('/repo/tests/test_inflector.py').read()
inf = re.findall(r"assertEqual\('(\w+)', _INFLECT.past_participle\('(\w+)'\)\)", src)
assert len(inf) == src.count('past_participle(\'')
words = {w.lower() for w, _, _, _ in lem} | {w for _, w in std} | {w for _, w in inf}
starts = set()
for w in words:
    for p in ['', 're', 'un', 'mis', 'dis', 'out', 'co', 'sub', 'grand', 're-']:
        if w.startswith(p) and len(w) > len(p) + 2:
            starts.add(w[len(p):][:3])
uni = []
for line in open(DATA + 'langmodel/1_grams.txt', encoding='utf-8'):
    t, c, p = line.rstrip('\n').split('\t')
    if t[:3] in starts:
        uni.append((t, int(c), int(round(float(p) * 10 ** 17))))
out = ['(** Conformance of the normalization layer with the expectations of the repository\'s own tests',
       '    (tests/test_lemmatizer.py, test_standardizer.py, test_inflector.py). Generated by tools/mkconf_normal.py. *)',
       'From Coq Require Import Ascii String.',
       'From Coq Require Import List NArith ZArith Arith Bool.',
       'From Verif Require Import PyBase Regex MUtils MTree MNgram MLangModel MNormal.',
       'Import ListNotations.', 'Local Open Scope nat_scope.', '']


def pairs(name, d):
    out.append('Definition %s : list (str * str) := map (fun p => (lit (fst p), lit (snd p))) [%s]%%string.' % (
        name, '; '.join('("%s", "%s")' % kv for kv in d)))


pps = dct('irregular_past_participles.txt')
pairs('pps', pps)
pairs('preterits', dct('irregular_preterits.txt'))
pairs('plurals', dct('irregular_plurals.txt'))
pairs('comparatives', dct('irregular_comparatives.txt'))
pairs('superlatives', dct('irregular_superlatives.txt'))
out.append('Definition adjectives : list str := map lit [%s]%%string.' % '; '.join('"%s"' % a for a in lst('adjectives.txt')))
out.append('Definition unigrams : list (str * (Z * Z)) := map (fun p => (lit (fst p), snd p)) [%s].' % ';\n  '.join(
    '("%s"%%string, (%d, %d)%%Z)' % u for u in uni))
out.append('''Definition conf_lm : lm Z (option Z) := {| lm_max_order := 2;
  lm_details := map (fun '(t, (c, p)) => (t, {| d_count := c; d_proba := p; d_logp := Some p |})) unigrams; lm_next := [] |}.
Definition conf_leL (x y : option Z) : bool := match x, y with None, _ => true | Some _, None => false | Some a, Some b => (a <=? b)%Z end.
Definition conf_lx : lexicon := {| lx_adjs := adjectives; lx_preterit := preterits; lx_pp := pps; lx_plural := plurals;
  lx_comparative := comparatives; lx_superlative := superlatives; lx_lemma_pp := reverse_dict str_eqb pps; lx_prefixes := PREFIXES |}.
Definition conf_tokenize (s : option str) : res (list str) := Ok (match s with Some t => split_ws ascii_space t | None => [[]] end).
Definition conf_lemmatize := lemmatize ascii_udb Z (option Z) conf_leL 0%Z None conf_lm conf_lx.
Definition conf_standardize := standardize ascii_udb Z (option Z) conf_leL 0%Z None conf_lm.
Definition conf_participle := past_participle Z (option Z) conf_leL 0%Z None conf_tokenize conf_lm (reverse_dict str_eqb pps).
Definition suffix_eqb (a b : option suffix) : bool := match a, b with None, None => true | Some x, Some y => if suffix_eq_dec x y then true else false | _, _ => false end.
(** [s] is [None] when the test says nothing of the suffix *)
Definition lemma_is (w : str) (t : tag) (l : str) (s : option (option suffix)) : bool :=
  match conf_lemmatize w t with
  | Ok (l', s') => str_eqb l l' && match s with Some s0 => suffix_eqb s0 s' | None => true end
  | Err _ => false
  end.
Definition res_is (r : res str) (x : str) : bool := match r with Ok y => str_eqb x y | Err _ => false end.
''')
sel = lem


def suf(s):
    if not s:
        return 'None'
    if s == 'None':
        return '(Some None)'
    return '(Some (Some %s))' % s.split('.')[1]


out.append('Example conf_lemmas : filter (fun c => let \'(w, t, l, s) := c in negb (lemma_is w t l s)) [\n  %s] = [].' % ';\n  '.join(
    '(%s, %s, %s, %s)' % (lit(w), t, lit(l), suf(s)) for w, t, l, s in sel))
out.append('Proof. vm_compute. reflexivity. Qed.')
out.append('Example conf_standards : filter (fun c => negb (res_is (conf_standardize (fst c)) (snd c))) [\n  %s] = [].' % ';\n  '.join(
    '(%s, %s)' % (lit(w), lit(s)) for s, w in std))
out.append('Proof. vm_compute. reflexivity. Qed.')
out.append('Example conf_participles : filter (fun c => negb (res_is (conf_participle (fst c)) (snd c))) [\n  %s] = [].' % ';\n  '.join(
    '(%s, %s)' % (lit(w), lit(s)) for s, w in inf))
out.append('Proof. vm_compute. reflexivity. Qed.')
open(OUT, 'w').write('\n'.join(out) + '\n')
print(len(uni), 'unigrams', len(sel), 'lemmas')
