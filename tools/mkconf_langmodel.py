"""Generates rocq/theories/ConfLangModel.v from the expectations of tests/test_mkn_smoother.py and
tests/test_token_context.py, read as text (the tests are not run)."""
import ast
import os
from fractions import Fraction

HERE = os.path.dirname(os.path.abspath(__file__))
OUT = os.path.join(HERE, '..', 'rocq', 'theories', 'ConfLangModel.v')


def q(x):
    f = Fraction(x)
    return '(%d # %d)' % (f.numerator, f.denominator)


def lits(l):
    return '[%s]' % '; '.join('lit "%s"' % x for x in l)


out = ['(** Conformance of the language model layer with the expectations of the repository\'s own tests',
       '    (tests/test_mkn_smoother.py, tests/test_token_context.py). Generated by tools/mkconf_langmodel.py. *)',
       'From Coq Require Import Ascii String.',
       'From Coq Require Import List NArith ZArith QArith Qabs Arith Bool.',
       'From Verif Require Import PyBase Regex MUtils MNgram MSmooth MBuilder.',
       'Import ListNotations.', 'Local Open Scope nat_scope.', '']
src = open('/repo/tests/test_mkn_smoother.py').read()
tree = ast.parse(src)
fn = [n for n in ast.walk(tree) if isinstance(n, ast.FunctionDef)][0]
texts = [n.value.value for n in fn.body if isinstance(n, ast.Assign) and isinstance(n.value, ast.Constant)
         and isinstance(n.value.value, str)]
disc = []
vals = {1: [], 2: [], 3: []}
sizes = []
order = 0


def const(e):
    if isinstance(e, ast.UnaryOp):
        return '-' + const(e.operand)
    return ast.get_source_segment(src, e)


for n in fn.body:
    if isinstance(n, ast.Expr) and isinstance(n.value, ast.Call):
        f = n.value.func.attr
        if f == 'assertAlmostEqual':
            c = n.value.args[1]
            disc.append((int(c.func.attr[-1]), c.args[0].value, const(n.value.args[0])))
        elif f == 'assertEqual':
            sizes.append(n.value.args[0].value)
    if isinstance(n, ast.For) and isinstance(n.iter, ast.Call):
        order = n.iter.args[0].value
        for m in n.body:
            if isinstance(m, ast.If):
                vals[order].append((m.test.comparators[0].value, const(m.body[0].value.args[0])))
assert len(texts) == 7 and sizes == [17, 27, 33]
out.append('Definition mkn_texts : list string := [\n  %s]%%string.' % ';\n  '.join('"%s"' % t for t in texts))
out.append('''Definition U := ascii_udb.
Definition mkn_sentences : list (list (list str)) := map (fun t => [split_ws (u_space U) (lit t)]) mkn_texts.
Definition mkn_test_store : res store := foldM (add_text U 3) [] mkn_sentences.
(** assertAlmostEqual: equal when the difference is rounded to 7 decimals *)
Definition almost (a b : Q) : bool := Qle_bool (Qabs (a - b)) (1 # 20000000).
Definition mkn_test (nb_processes : Z) : res (mkn * list (list Q)) :=
  let! s := mkn_test_store in
  let! m := mkn_init U (store_ngrams s) 3 in
  let! (uni, unis) := calc_unigram_probas m nb_processes in
  let! bi := calc_higher_order_probas U m unis nb_processes 2 in
  let! tri := calc_higher_order_probas U m unis nb_processes 3 in
  Ok (m, [uni; bi; tri]).
(** the values are found for all the ngrams of one order *)
Definition values_ok (m : mkn) (order : nat) (probas : list Q) (expected : list (string * Q)) : bool :=
  forallb (fun '(t, v) => existsb (fun '(n, p) => str_eqb (ng_text n) (lit t) && almost v p)
                                  (combine (get_order_or_nil (k_ngrams (mk_counts m)) order) probas)) expected.
Definition is_key_error (r : res Q) : bool := match r with Err KeyError => true | _ => false end.
Definition almost_res (r : res Q) (q : Q) : bool := match r with Ok x => almost x q | _ => false end.''')
for o in (1, 2, 3):
    out.append('Definition expected_%d : list (string * Q) := [%s]%%string.' % (o, ';\n  '.join('("%s", %s)' % (t, q(v)) for t, v in vals[o])))
d = ' &&\n  '.join('almost_res (dq (mk_d%d m) %d) %s' % (i, o, q(v)) for i, o, v in disc)
for nb in (1, 3, 40):
    out.append('''Example mkn_conformance_%d : match mkn_test %d with
  | Ok (m, [uni; bi; tri]) =>
  is_key_error (dq (mk_d1 m) 1) && is_key_error (dq (mk_d2 m) 1) && is_key_error (dq (mk_d3 m) 1) &&
  %s &&
  (length uni =? 17) && (length bi =? 27) && (length tri =? 33) &&
  values_ok m 1 uni expected_1 && values_ok m 2 bi expected_2 && values_ok m 3 tri expected_3
  | _ => false end = true.
Proof. vm_compute. reflexivity. Qed.''' % (nb, nb, d))
out.append('')
src = open('/repo/tests/test_token_context.py').read()
tree = ast.parse(src)
k = 0
for fn in [n for n in ast.walk(tree) if isinstance(n, ast.FunctionDef)]:
    a = [ast.literal_eval(x) for x in fn.body[0].value.args]
    tc = '{| tc_token := lit "%s"; tc_before := %s; tc_after := %s |}' % (a[0], lits(a[1]), lits(a[2]))
    for st in fn.body[1:]:
        c = st.value
        k += 1
        if c.func.attr == 'assertRaises':
            o = c.args[1].body.args[0].value
            out.append('Example tc_%d : exists e, candidates %s %d = Err e.\nProof. eexists. reflexivity. Qed.' % (k, tc, o))
        else:
            exp = ast.literal_eval(c.args[0])
            o = c.args[1].args[0].value
            out.append('Example tc_%d : candidates %s %d = Ok %s.\nProof. reflexivity. Qed.' % (k, tc, o, lits(exp)))
open(OUT, 'w').write('\n'.join(out) + '\n')
