"""Writes rocq/theories/MData.v: the irregular word lists of /repo/scrappybara/data/english as Coq strings."""
import os
D = '/repo/scrappybara/data/english/'
out = os.path.join(os.path.dirname(os.path.abspath(__file__)), '..', 'rocq', 'theories', 'MData.v')
with open(out, 'w') as f:
    f.write('''(** The irregular word lists of scrappybara/data/english, as they are. Written by tools/mkdata.py. *)
From Coq Require Import Ascii String.
From Coq Require Import List NArith.
From Verif Require Import PyBase MFiles.
''')
    for name in ['preterits', 'past_participles', 'plurals', 'comparatives', 'superlatives']:
        text = open(D + 'irregular_%s.txt' % name, encoding='utf-8', newline='').read()
        assert all(ord(c) < 128 for c in text) and '"' not in text
        f.write('\n(** data/english/irregular_%s.txt *)\nDefinition irregular_%s_txt : str := lit "%s".\n' % (name, name, text))
    f.write('''
(** data/english, with the lists of nouns and of adjectives left open: load_dict_from_txt_file and load_set_from_txt_file are called on
    these files in pipeline/logic_pipeline.py:24-30 *)
Definition shipped (nouns adjectives : str) : english_files := {|
  f_preterits := irregular_preterits_txt; f_past_participles := irregular_past_participles_txt; f_plurals := irregular_plurals_txt;
  f_comparatives := irregular_comparatives_txt; f_superlatives := irregular_superlatives_txt; f_nouns := nouns; f_adjectives := adjectives |}.
''')
