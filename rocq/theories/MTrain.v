(** Model of scrappybara/syntax/training_samples.py:76-129 and of scrappybara/syntax/labelled_data.py:28-59:
    the samples extracted from labelled sentences to train the three neural models; names of tags and
    dependencies (tags.py, dependencies.py) as they appear in the token tuples. *)
From Coq Require Import Ascii String.
From Coq Require Import List NArith ZArith Arith Bool.
From Verif Require Import PyBase Regex MUtils MTree MVector MLabelled.
Import ListNotations.
Local Open Scope nat_scope.

(** syntax/tags.py:13-33: the value of each member *)
Definition tag_value (t : tag) : nat :=
  match t with
  | TPAD => 0 | ADJ => 1 | PREP => 2 | ADV => 3 | MAT => 4 | CONJ => 5 | DET => 6 | EXPR => 7 | NOUN => 8 | NUM => 9
  | FRAG => 10 | PRON => 11 | PROPN => 12 | PUNCT => 13 | VERB => 14 | SYM => 15 | THERE => 16
  end.
(** syntax/dependencies.py:11-43: the value of each member *)
Definition dep_value (d : dep) : nat :=
  match d with
  | DPAD => 0 | NODEP => 1 | ROOT => 2 | AND => 3 | ART => 4 | AUX => 5 | CALLEE => 6 | CMARK => 7 | CPL => 8 | EXIST => 9
  | FLAT => 10 | IMARK => 11 | INTJ => 12 | IOBJ => 13 | IPROP => 14 | MARK => 15 | MODAL => 16 | NEG => 17 | OBJ => 18
  | OR => 19 | ORPHAN => 20 | PART => 21 | PROP => 22 | SPLIT => 23 | SUBJ => 24
  end.
(** syntax/transitions.py:8-11: the value of each member *)
Definition trans_value (t : trans) : nat := match t with LEFT => 0 | RIGHT => 1 | REDUCE => 2 | SHIFT => 3 end.

(** syntax/tags.py:13-33, syntax/dependencies.py:11-43: the members by name *)
Definition tag_members : list (str * tag) := [
  (lit "PAD", TPAD); (lit "ADJ", ADJ); (lit "PREP", PREP); (lit "ADV", ADV); (lit "MAT", MAT); (lit "CONJ", CONJ); (lit "DET", DET);
  (lit "EXPR", EXPR); (lit "NOUN", NOUN); (lit "NUM", NUM); (lit "FRAG", FRAG); (lit "PRON", PRON); (lit "PROPN", PROPN);
  (lit "PUNCT", PUNCT); (lit "VERB", VERB); (lit "SYM", SYM); (lit "THERE", THERE)].
Definition dep_members : list (str * dep) := [
  (lit "PAD", DPAD); (lit "NODEP", NODEP); (lit "ROOT", ROOT); (lit "AND", AND); (lit "ART", ART); (lit "AUX", AUX); (lit "CALLEE", CALLEE);
  (lit "CMARK", CMARK); (lit "CPL", CPL); (lit "EXIST", EXIST); (lit "FLAT", FLAT); (lit "IMARK", IMARK); (lit "INTJ", INTJ); (lit "IOBJ", IOBJ);
  (lit "IPROP", IPROP); (lit "MARK", MARK); (lit "MODAL", MODAL); (lit "NEG", NEG); (lit "OBJ", OBJ); (lit "OR", OR); (lit "ORPHAN", ORPHAN);
  (lit "PART", PART); (lit "PROP", PROP); (lit "SPLIT", SPLIT); (lit "SUBJ", SUBJ)].
(** Tag[name], Dep[name]: KeyError when there is no such member *)
Definition tag_named (name : str) : res tag := of_option KeyError (dget str_eqb name tag_members).
Definition dep_named (name : str) : res dep := of_option KeyError (dget str_eqb name dep_members).

(** A token tuple as given by the user: token, name of tag, name of dependency, parent index *)
Record named_tuple := { nt_token : str; nt_tag : str; nt_dep : str; nt_parent : Z }.
(** syntax/labelled_data.py:72-76: the first token named ROOT; names are decoded up to it *)
Fixpoint find_named_root (idx : nat) (tuples : list named_tuple) : res (option nat) :=
  match tuples with
  | [] => Ok None
  | t :: tuples' => let! d := dep_named (nt_dep t) in if dep_eqb d ROOT then Ok (Some idx) else find_named_root (S idx) tuples'
  end.
(** syntax/labelled_data.py:65-87 [LabelledSentence.__init__] on tuples with names *)
Definition make_labelled_named (tuples : list named_tuple) : res labelled :=
  let! root := find_named_root 0 tuples in
  match root with
  | None => Ok {| l_tokens := []; l_tags := []; l_deps := []; l_tree := None |}
  | Some root_idx =>
    let! (l, t) := foldM (fun '(l, tr) '(child_idx, tu) =>
        let! d := dep_named (nt_dep tu) in
        let! g := tag_named (nt_tag tu) in
        let l' := {| l_tokens := l_tokens l ++ [nt_token tu]; l_tags := l_tags l ++ [g]; l_deps := l_deps l ++ [d]; l_tree := None |} in
        if negb (dep_in d [ROOT; NODEP]) && (-1 <? nt_parent tu)%Z
        then let! tr' := register_child tr d (Z.to_nat (nt_parent tu)) child_idx in Ok (l', tr')
        else Ok (l', tr))
      ({| l_tokens := []; l_tags := []; l_deps := []; l_tree := None |}, new_tree root_idx) (enumerate tuples) in
    Ok {| l_tokens := l_tokens l; l_tags := l_tags l; l_deps := l_deps l; l_tree := Some t |}
  end.

(** syntax/training_samples.py:81-87 [_tag_ids], [_dep_ids] *)
Definition tag_ids (tags : list tag) : list nat := pad_array ([tag_value TPAD] ++ map tag_value tags ++ [tag_value TPAD]) PADDED_SENT_LENGTH.
Definition dep_ids (deps : list dep) : list nat := pad_array ([dep_value DPAD] ++ map dep_value deps ++ [dep_value DPAD]) PADDED_SENT_LENGTH.

(** [[list(data) for data in zip( *rows)]]: the columns; no row gives no column (None stands for the empty list) *)
Definition columns3 {A B C} (rows : list (A * B * C)) : option (list A * list B * list C) :=
  match rows with
  | [] => None
  | _ => Some (map (fun '(a, _, _) => a) rows, map (fun '(_, b, _) => b) rows, map (fun '(_, _, c) => c) rows)
  end.
Definition columns4 {A B C D} (rows : list (A * B * C * D)) : option (list A * list B * list C * list D) :=
  match rows with
  | [] => None
  | _ => Some (map (fun '(a, _, _, _) => a) rows, map (fun '(_, b, _, _) => b) rows, map (fun '(_, _, c, _) => c) rows, map (fun '(_, _, _, d) => d) rows)
  end.
Definition columns7 {A B C D E F G} (rows : list (A * B * C * D * E * F * G)) : option (list A * list B * list C * list D * list E * list F * list G) :=
  match rows with
  | [] => None
  | _ => Some (map (fun '(a, _, _, _, _, _, _) => a) rows, map (fun '(_, b, _, _, _, _, _) => b) rows, map (fun '(_, _, c, _, _, _, _) => c) rows,
               map (fun '(_, _, _, d, _, _, _) => d) rows, map (fun '(_, _, _, _, e, _, _) => e) rows, map (fun '(_, _, _, _, _, f, _) => f) rows,
               map (fun '(_, _, _, _, _, _, g) => g) rows)
  end.

Section Train.
  Context (V : Type) (v0 : V) (U : udb) (cs : charset) (ws : wordset V).
  Notation vectorize := (vectorize_sentence V v0 U cs ws).

  (** The materials of a sample (syntax/training_samples.py:98-100, 110-112, 125-128) *)
  Definition ptags_mats : Type := list (list nat) * list (list V) * list nat.
  Definition pdeps_mats : Type := list nat * list (list nat) * list (list V) * list nat.
  Definition trans_mats : Type := list nat * list nat * list (list nat) * list (list V) * list bool * list bool * nat.

  (** syntax/training_samples.py:90-100 [PTagsSample], its training_mats *)
  Definition ptags_sample (tokens : list str) (tags : list tag) : res ptags_mats :=
    let! d := vectorize tokens in
    Ok (m_chars d, m_words d, tag_ids tags).
  (** syntax/training_samples.py:103-112 [PDepsSample] *)
  Definition pdeps_sample (tokens : list str) (tags : list tag) (deps : list dep) : res pdeps_mats :=
    let! d := vectorize tokens in
    Ok (tag_ids tags, m_chars d, m_words d, dep_ids deps).
  (** syntax/training_samples.py:115-128 [TransSample] *)
  Definition trans_sample (tokens : list str) (tags : list tag) (deps : list dep) (idx_1 idx_2 : nat) (t : trans) : res trans_mats :=
    let! d := vectorize tokens in
    let! masks := make_masks (idx_1 + 1) (idx_2 + 1) in
    Ok (tag_ids tags, dep_ids deps, m_chars d, m_words d, fst masks, snd masks, trans_value t).

  (** random.shuffle (labelled_data.py:32, 42, 55): what it makes of a list is given *)
  Context (shuffle_ptags : list ptags_mats -> list ptags_mats) (shuffle_pdeps : list pdeps_mats -> list pdeps_mats)
    (shuffle_trans : list trans_mats -> list trans_mats).

  (** syntax/labelled_data.py:28-35 [extract_ptags_training_data]; the samples are shuffled, which is the same as shuffling their materials *)
  Definition extract_ptags_training_data (token_tuple_lists : list (list named_tuple)) :=
    let! labelled_sents := mapM make_labelled_named token_tuple_lists in
    let! samples := mapM (fun sent => ptags_sample (l_tokens sent) (l_tags sent)) labelled_sents in
    Ok (columns3 (shuffle_ptags samples)).
  (** syntax/labelled_data.py:38-45 [extract_pdeps_training_data] *)
  Definition extract_pdeps_training_data (token_tuple_lists : list (list named_tuple)) :=
    let! labelled_sents := mapM make_labelled_named token_tuple_lists in
    let! samples := mapM (fun sent => pdeps_sample (l_tokens sent) (l_tags sent) (l_deps sent)) labelled_sents in
    Ok (columns4 (shuffle_pdeps samples)).
  (** syntax/labelled_data.py:48-59 [extract_trans_training_data] *)
  Definition extract_trans_training_data (token_tuple_lists : list (list named_tuple)) :=
    let! labelled_sents := mapM make_labelled_named token_tuple_lists in
    let! samples := mapM (fun sent =>
        let! trs := transitions sent in
        mapM (fun '(idx_1, idx_2, transition) => trans_sample (l_tokens sent) (l_tags sent) (l_deps sent) idx_1 idx_2 transition) trs)
      labelled_sents in
    Ok (columns7 (shuffle_trans (concat samples))).
End Train.
