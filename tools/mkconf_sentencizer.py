"""Reads the example of /repo/docs/sentencizer.md as text (nothing is executed) and writes rocq/theories/ConfSentencizer.v, which checks that the model computes the same sentences."""
import ast
doc = open('/repo/docs/sentencizer.md', encoding='utf-8').read()
call = [n for n in ast.walk(ast.parse(doc.split('```python')[1].split('```')[0])) if isinstance(n, ast.Call) and getattr(n.func, 'id', '') == 'sentencize'][0]
expected = ast.literal_eval(doc.split('```terminal')[1].split('```')[0].strip())
def codes(s):
    return '[' + '; '.join(str(ord(c)) for c in s) + ']'
out = ['(** Conformance of the sentencizer model with the example of /repo/docs/sentencizer.md.',
       '    Generated by tools/mkconf_sentencizer.py. These are tests of the model, not theorems about it. *)',
       'From Coq Require Import List NArith Bool.', 'From Verif Require Import PyBase Regex MTokenizer MSentencizer.',
       'Import ListNotations.', 'Local Open Scope N_scope.', '',
       'Definition doc_text : str := %s.' % codes(call.args[0].value),
       'Example doc_sentences : sentencize ascii_udb (tokenize ascii_udb) doc_text = Ok [%s].' % '; '.join('[%s]' % '; '.join(codes(t) for t in s) for s in expected),
       'Proof. vm_compute. reflexivity. Qed.', '']
open('/verif/rocq/theories/ConfSentencizer.v', 'w').write('\n'.join(out))
