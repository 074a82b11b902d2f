"""Reads the expectations of /repo/tests/test_tokenizer.py as text (ast, nothing is executed) and writes
rocq/theories/ConfTokenizer.v, which checks that the model computes the same tokens."""
import ast, sys
src = open('/repo/tests/test_tokenizer.py', encoding='utf-8').read()
cases = []
for node in ast.walk(ast.parse(src)):
    if isinstance(node, ast.Call) and isinstance(node.func, ast.Attribute) and node.func.attr == 'assertEqual':
        exp, act = node.args
        assert isinstance(exp, ast.Call) and exp.func.attr == 'split'
        cases.append((exp.func.value.value.split(), act.args[0].value))
def codes(s):
    return '[' + '; '.join(str(ord(c)) for c in s) + ']'
out = ['(** Conformance of the tokenizer model with the expectations of /repo/tests/test_tokenizer.py.',
       '    Generated by tools/mkconf_tokenizer.py. These are tests of the model, not theorems about it. *)',
       'From Coq Require Import List NArith Bool.', 'From Verif Require Import PyBase Regex MTokenizer.',
       'Import ListNotations.', 'Local Open Scope N_scope.', '',
       'Definition tokenizer_cases : list (str * list str) := [']
out.append(';\n'.join('  (%s, [%s])' % (codes(a), '; '.join(codes(t) for t in e)) for e, a in cases))
out += ['].', '',
        'Definition case_ok (c : str * list str) : bool :=',
        '  match tokenize ascii_udb (fst c) with Ok l => list_eqb str_eqb l (snd c) | Err _ => false end.', '',
        'Example tokenizer_conforms : forallb case_ok tokenizer_cases = true.', 'Proof. vm_compute. reflexivity. Qed.', '']
open('/verif/rocq/theories/ConfTokenizer.v', 'w').write('\n'.join(out))
print(len(cases))
