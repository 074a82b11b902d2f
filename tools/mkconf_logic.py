"""Generates rocq/theories/ConfLogic.v from the samples and expectations of tests/test_logic_pipeline.py, read as text (the
tests are not run). As in mkconf_normal.py, the language model has unigrams only, and only those that begin like a word of
the samples; the same selection is made in the list of nouns. One bigram is
added, "they hate", without which hates is a form of hat (the bigrams are not in the repository)."""
import ast
import os

HERE = os.path.dirname(os.path.abspath(__file__))
OUT = os.path.join(HERE, '..', 'rocq', 'theories', 'ConfLogic.v')
DATA = '/repo/scrappybara/data/'


def lit(s):
    assert all(ord(c) < 128 for c in s), s
    return 'lit "%s"' % s.replace('"', '""')


tests = []
for cls in ast.parse(open('/repo/tests/test_logic_pipeline.py').read()).body:
    if isinstance(cls, ast.ClassDef):
        for fn in cls.body:
            sample = expected = None
            for st in fn.body:
                if isinstance(st, ast.Assign) and st.targets[0].id == 'sample':
                    sample = ast.literal_eval(st.value)
                if isinstance(st, ast.Expr) and isinstance(st.value, ast.Call) and getattr(st.value.func, 'attr', '') == 'assertCountEqual':
                    expected = ast.literal_eval(st.value.args[0])
            tests.append((fn.name, sample, expected or []))
words = {tok.lower() for _, s, _ in tests for tok, _, _, _ in s}
words |= {part for w in words for part in w.split('-')}
starts = set()
for w in words:
    for p in ['', 're', 'un', 'mis', 'dis', 'out', 'co', 'sub', 'grand', 're-']:
        if w.startswith(p) and len(w) > len(p) + 2:
            starts.add(w[len(p):][:3])
quads = {w[i:i + 4] for w in words for i in range(len(w))}
uni = []
for line in open(DATA + 'langmodel/1_grams.txt', encoding='utf-8'):
    t, c, p = line.rstrip('\n').split('\t')
    if t[:3] in starts and (len(t) < 4 or t[:4] in quads):
        uni.append((t, int(c), int(round(float(p) * 10 ** 17))))
uni.append(('they hate', 1, 1))
nouns = [line.strip() for line in open(DATA + 'english/nouns.txt', encoding='utf-8')]
nouns = [n for n in nouns if any(n[:3] == w[:3] for w in words)]
out = ['(** Conformance of the node, argument and semantic tuple layers with the expectations of the repository\'s own tests',
       '    (tests/test_logic_pipeline.py). Generated by tools/mkconf_logic.py. *)',
       'From Coq Require Import Ascii String.',
       'From Coq Require Import List NArith ZArith Arith Bool.',
       'From Verif Require Import PyBase Regex MUtils MTree MLabelled MNgram MLangModel MNormal MNode MSem ConfNormal.',
       'Import ListNotations.', 'Local Open Scope nat_scope.', '']
out.append('Definition logic_unigrams : list (str * (Z * Z)) := map (fun p => (lit (fst p), snd p)) [%s].' % ';\n  '.join(
    '("%s"%%string, (%d, %d)%%Z)' % u for u in uni))
out.append('Definition logic_nouns : list str := map lit [%s]%%string.' % '; '.join('"%s"' % n for n in nouns))
out.append('''Definition logic_lm : lm Z (option Z) := {| lm_max_order := 2;
  lm_details := map (fun '(t, (c, p)) => (t, {| d_count := c; d_proba := p; d_logp := Some p |})) logic_unigrams; lm_next := [] |}.
Definition sample_strs (sample : list token_tuple) : res (list str) :=
  let! l := make_labelled sample in
  let! (_, _, _, s) := logic_process ascii_udb Z (option Z) conf_leL 0%Z None conf_tokenize logic_lm conf_lx logic_nouns (l_tokens l) (l_tags l) (l_tree l) true in
  Ok (map (stuple_flatten true) s).
Definition T (w : string) (t : tag) (d : dep) (p : Z) : token_tuple := {| tt_token := lit w; tt_tag := t; tt_dep := d; tt_parent := p |}.
(** assertCountEqual *)
Definition count_equal (a b : list str) : bool :=
  forallb (fun x => length (filter (str_eqb x) a) =? length (filter (str_eqb x) b)) (a ++ b).
Definition sample_is (sample : list token_tuple) (expected : list string) : bool :=
  match sample_strs sample with Ok l => count_equal l (map lit expected) | Err _ => false end.
''')
for name, sample, expected in tests:
    out.append('Example logic_%s : sample_is [%s]\n  [%s]%%string = true.\nProof. vm_compute. reflexivity. Qed.' % (
        name, '; '.join('T "%s" %s %s (%d)' % (w.replace('"', '""'), t, d, p) for w, t, d, p in sample), '; '.join('"%s"' % e for e in expected)))
open(OUT, 'w').write('\n'.join(out) + '\n')
print(len(tests), len(uni), len(nouns))
