(** Model of scrappybara/semantics: argument_code.py, argument.py, semantic_tuple.py, semantic_tuple_extractor.py. *)
From Coq Require Import Ascii String.
From Coq Require Import List NArith ZArith Arith Bool.
From Verif Require Import PyBase Regex MUtils MTree MNgram MLangModel MNormal MNode.
Import ListNotations.
Local Open Scope nat_scope.

(** * argument_code.py, argument.py *)

(** semantics/argument_code.py:5-18 [ArgCode] *)
Inductive argcode : Set := C_ADJ | C_COP | C_PP | C_INTR | C_NOUN | C_PRON | C_PROPN | C_REC | C_SYM | C_TRANS | C_NUM.
Definition all_codes : list argcode := [C_ADJ; C_COP; C_PP; C_INTR; C_NOUN; C_PRON; C_PROPN; C_REC; C_SYM; C_TRANS; C_NUM].
(** ArgCode.X.value *)
Definition value (c : argcode) : str :=
  match c with
  | C_ADJ => lit "A" | C_COP => lit "C" | C_PP => lit "L" | C_INTR => lit "I" | C_NOUN => lit "N" | C_PRON => lit "O"
  | C_PROPN => lit "P" | C_REC => lit "R" | C_SYM => lit "S" | C_TRANS => lit "T" | C_NUM => lit "U"
  end.
(** semantics/argument.py:6-18 [Argument] *)
Record argument := { a_word : str; a_code : str; a_aff : bool }.
Definition new_argument (word code : str) (is_affirmative : bool) : res argument :=
  if str_in code (map value all_codes) then Ok {| a_word := word; a_code := code; a_aff := is_affirmative |}
  else Err ArgumentValueError.
(** semantics/argument.py:26-33 [tag] *)
Definition argument_tag (a : argument) : str :=
  if str_in (a_code a) (map value [C_ADJ; C_PP]) then lit "ADJ"
  else if str_in (a_code a) (map value [C_INTR; C_REC; C_TRANS]) then lit "VERB"
  else lit "NOUN".
(** semantics/argument.py:35-41 [flatten] *)
Definition argument_flatten (with_decorators : bool) (a : argument) : str :=
  join (lit " ") ((if with_decorators && negb (a_aff a) then [lit "NOT"] else []) ++ [a_word a]).

(** * semantic_tuple.py *)

(** semantics/semantic_tuple.py:1-5 [SemanticTuple] *)
Definition stuple := list argument.
(** semantics/semantic_tuple.py:19-22 [code] *)
Definition stuple_code (s : stuple) : str := join [] (map a_code s).
(** semantics/semantic_tuple.py:24-26 [flatten] *)
Definition stuple_flatten (with_decorators : bool) (s : stuple) : str :=
  stuple_code s ++ lit "(" ++ join (lit ", ") (map (argument_flatten with_decorators) s) ++ lit ")".
(** semantics/semantic_tuple.py:28-30 [arg] *)
Definition stuple_arg (s : stuple) (idx : Z) : res argument := index s idx.
(** semantics/semantic_tuple.py:32-33 [has_any_arg_with_code] *)
Definition has_any_arg_with_code (s : stuple) (code : str) : bool := existsb (fun a => str_eqb (a_code a) code) s.

(** * semantic_tuple_extractor.py *)

(** Nested loops that append to a list: the items made by each turn, one after the other *)
Definition gather {A B} (f : A -> res (list B)) (l : list A) : res (list B) := let! ls := mapM f l in Ok (concat ls).

Section Extractor.
  Context (h : heap) (R : relheap).
  (** self.__inflector.past_participle *)
  Context (past_participle : str -> res str).
  Definition is_noun (r : nat) : bool := tag_in (n_tag (h r)) NOUN_TAGS.
  Definition is_prop (r : nat) : bool := tag_in (n_tag (h r)) PROP_TAGS.
  Definition canon (r : nat) : str := n_canon (h r).
  Definition aff (r : nat) : bool := r_aff (R r).
  Definition rel (a : attr) (r : nat) : list nat := r_list (R r) a.

  (** semantics/semantic_tuple_extractor.py:10-20 [_noun_arg_code] *)
  Definition noun_arg_code (r : nat) : str :=
    match n_tag (h r) with PROPN => value C_PROPN | PRON => value C_PRON | NUM => value C_NUM | SYM => value C_SYM | _ => value C_NOUN end.
  (** semantics/semantic_tuple_extractor.py:23-27 [_adj_arg_code] *)
  Definition adj_arg_code (r : nat) : str := if truthy (n_active (h r)) then value C_PP else value C_ADJ.
  (** semantics/semantic_tuple_extractor.py:30-33 [_prop_arg_code] *)
  Definition prop_arg_code (r : nat) : str := match n_tag (h r) with ADJ => adj_arg_code r | _ => noun_arg_code r end.
  (** semantics/semantic_tuple_extractor.py:37-38 *)
  Definition not_passive : list str := map lit ["have"; "get"]%string.
  Definition not_intransitive : list str := map lit ["have"; "get"; "be"; "do"]%string.

  (** Argument(noun.canon, _noun_arg_code(noun)) *)
  Definition noun_argument (r : nat) : res argument := new_argument (canon r) (noun_arg_code r) true.

  (** semantics/semantic_tuple_extractor.py:68-99 [__make_stuples_from_verbs_subjs_objs]; also the nodes added to
      blocked_for_next_round *)
  Definition clause_stuples (verb subj_1 : nat) (subj_1_arg : argument) (obj_1 : nat) : res (list stuple) :=
    let subjs_2 := match rel A_subjs obj_1 with [] => [subj_1] | ss => filter is_noun ss end in
    gather (fun subj_2 =>
      let! subj_2_arg := noun_argument subj_2 in
      let! simple :=
        (if cannot_be_transitive R obj_1 then Ok []
         else
           let! intr :=
             (if negb (nonempty (rel A_objs obj_1)) && negb (str_in (canon obj_1) not_intransitive) then
                let! is_aff := xnor [aff subj_1; aff verb; aff subj_2; aff obj_1] in
                let! verb_arg := new_argument (canon verb) (value C_TRANS) is_aff in
                let! obj_1_arg := new_argument (canon obj_1) (value C_INTR) true in
                Ok [[subj_1_arg; verb_arg; subj_2_arg; obj_1_arg]]
              else Ok []) in
           let! trans := gather (fun obj_2 =>
                let! is_aff := xnor [aff subj_1; aff verb; aff subj_2; aff obj_1; aff obj_2] in
                let! verb_arg := new_argument (canon verb) (value C_TRANS) is_aff in
                let! obj_1_arg := new_argument (canon obj_1) (value C_TRANS) true in
                let! obj_2_arg := noun_argument obj_2 in
                Ok [[subj_1_arg; verb_arg; subj_2_arg; obj_1_arg; obj_2_arg]]) (filter is_noun (rel A_objs obj_1)) in
           Ok (intr ++ trans)) in
      let! props := gather (fun prop =>
           let! is_aff := xnor [aff subj_1; aff verb; aff subj_2; aff obj_1; aff prop] in
           let! verb_arg := new_argument (canon verb) (value C_TRANS) is_aff in
           let! obj_1_arg := new_argument (canon obj_1) (value C_COP) true in
           let! prop_arg := new_argument (canon prop) (prop_arg_code prop) true in
           Ok [[subj_1_arg; verb_arg; subj_2_arg; obj_1_arg; prop_arg]]) (rel A_props obj_1) in
      Ok (simple ++ props)) subjs_2.
  Definition stuples_from_verbs_subjs_objs (verb : nat) : res (list stuple) :=
    gather (fun subj_1 =>
      let! subj_1_arg := noun_argument subj_1 in
      gather (clause_stuples verb subj_1 subj_1_arg) (filter (fun o => tag_eqb (n_tag (h o)) VERB) (rel A_objs verb)))
      (filter is_noun (rel A_subjs verb)).
  Definition blocked_by (verb : nat) : list nat :=
    flat_map (fun _ => filter (fun o => tag_eqb (n_tag (h o)) VERB) (rel A_objs verb)) (filter is_noun (rel A_subjs verb)).

  (** semantics/semantic_tuple_extractor.py:101-117 [__make_stuples_from_subjs_objs] *)
  Definition stuples_from_subjs_objs (verb : nat) : res (list stuple) :=
    let! intr :=
      (if negb (nonempty (rel A_objs verb)) && negb (str_in (canon verb) not_intransitive) then
         gather (fun subj =>
           let! subj_arg := noun_argument subj in
           let! is_aff := xnor [aff subj; aff verb] in
           let! verb_arg := new_argument (canon verb) (value C_INTR) is_aff in
           Ok [[subj_arg; verb_arg]]) (filter is_noun (rel A_subjs verb))
       else Ok []) in
    let! trans := gather (fun obj =>
      let! obj_arg := noun_argument obj in
      gather (fun subj =>
        let! subj_arg := noun_argument subj in
        let! is_aff := xnor [aff subj; aff verb; aff obj] in
        let! verb_arg := new_argument (canon verb) (value C_TRANS) is_aff in
        Ok [[subj_arg; verb_arg; obj_arg]]) (filter is_noun (rel A_subjs verb))) (filter is_noun (rel A_objs verb)) in
    Ok (intr ++ trans).

  (** pp = past_participle(verb.lemma), with the particles of the verb: lines 130-132 and 205-207 *)
  Definition participle (verb : nat) : res str :=
    let! pp := past_participle (n_lemma (h verb)) in
    Ok (match n_particles (h verb) with [] => pp | ps => join COMPOUND_JOIN (pp :: ps) end).
  (** semantics/semantic_tuple_extractor.py:119-135 [__make_stuples_from_objs] *)
  Definition stuples_from_objs (verb : nat) : res (list stuple) :=
    if str_in (canon verb) not_passive then Ok []
    else gather (fun obj =>
      let! obj_arg := noun_argument obj in
      let! is_aff :=
        match rel A_subjs verb with
        | [] => xnor [aff verb; aff obj]
        | subjs => xnor [existsb aff subjs; aff verb; aff obj]
        end in
      let! copula_arg := new_argument (lit "be") (value C_COP) is_aff in
      let! pp := participle verb in
      let! adj_arg := new_argument pp (value C_PP) true in
      Ok [[obj_arg; copula_arg; adj_arg]]) (filter is_noun (rel A_objs verb)).

  (** semantics/semantic_tuple_extractor.py:137-146 [__make_stuples_from_iobj] *)
  Definition stuples_from_iobj (verb : nat) : res (list stuple) :=
    gather (fun iobj =>
      let! iobj_arg := noun_argument iobj in
      gather (fun subj =>
        let! subj_arg := noun_argument subj in
        let! is_aff := xnor [aff subj; aff verb; aff iobj] in
        let! verb_arg := new_argument (canon verb) (value C_REC) is_aff in
        Ok [[subj_arg; verb_arg; iobj_arg]]) (filter is_noun (rel A_subjs verb))) (filter is_noun (rel A_iobjs verb)).

  (** The active forms of lines 157-163 and 188-193; [adj] has an active verb *)
  Definition active_stuples (noun adj : nat) (noun_arg : argument) (active : str) : res (list stuple) :=
    gather (fun agent =>
      let! is_aff := xnor [aff agent; aff adj; aff noun] in
      let! verb_arg := new_argument active (value C_TRANS) is_aff in
      let! agent_arg := noun_argument agent in
      Ok [[agent_arg; verb_arg; noun_arg]]) (filter is_noun (rel A_agents adj)).
  (** semantics/semantic_tuple_extractor.py:148-164 [__make_stuples_from_naked_adjs] *)
  Definition stuples_from_naked_adjs (noun : nat) : res (list stuple) :=
    let! noun_arg := noun_argument noun in
    gather (fun adj =>
      let! is_aff := xnor [aff adj; aff noun] in
      let! copula_arg := new_argument (lit "be") (value C_COP) is_aff in
      let! adj_arg := new_argument (canon adj) (adj_arg_code adj) true in
      let! active := match n_active (h adj) with Some (c :: v) => active_stuples noun adj noun_arg (c :: v) | _ => Ok [] end in
      Ok ([noun_arg; copula_arg; adj_arg] :: active)) (rel A_adjs noun).

  (** semantics/semantic_tuple_extractor.py:166-175 [__make_stuples_from_pp_props] *)
  Definition stuples_from_pp_props (noun : nat) : res (list stuple) :=
    let! noun_arg := noun_argument noun in
    gather (fun '(pp, prop) =>
      let! is_aff := xnor [aff noun; aff pp; aff prop] in
      let! copula_arg := new_argument (join (lit " ") [lit "be"; canon pp]) (value C_COP) is_aff in
      let! prop_arg := new_argument (canon prop) (prop_arg_code prop) true in
      Ok [[noun_arg; copula_arg; prop_arg]]) (filter (fun '(_, p) => is_prop p) (r_pps (R noun))).

  (** semantics/semantic_tuple_extractor.py:177-194 [__make_stuples_from_copula_props] *)
  Definition stuples_from_copula_props (noun : nat) : res (list stuple) :=
    let! noun_arg := noun_argument noun in
    gather (fun '(copula, prop) =>
      let! is_aff := xnor [aff noun; aff copula; aff prop] in
      let! copula_arg := new_argument (canon copula) (value C_COP) is_aff in
      let! prop_arg := new_argument (canon prop) (prop_arg_code prop) true in
      let! active :=
        match n_tag (h prop), n_active (h prop) with
        | ADJ, Some (c :: v) => active_stuples noun prop noun_arg (c :: v)
        | _, _ => Ok []
        end in
      Ok ([noun_arg; copula_arg; prop_arg] :: active)) (filter (fun '(_, p) => is_prop p) (r_copulas (R noun))).

  (** semantics/semantic_tuple_extractor.py:196-210 [__make_stuples_from_iprops] *)
  Definition stuples_from_iprops (noun : nat) : res (list stuple) :=
    let! noun_arg := noun_argument noun in
    gather (fun '(subj, verb, iprop) =>
      let! is_aff :=
        match subj with
        | None => xnor [aff verb; aff noun; aff iprop]
        | Some s => xnor [aff s; aff verb; aff noun; aff iprop]
        end in
      let! pp := participle verb in
      let! copula_arg := new_argument (join (lit " ") [lit "be"; pp]) (value C_COP) is_aff in
      let! iprop_arg := new_argument (canon iprop) (prop_arg_code iprop) true in
      Ok [[noun_arg; copula_arg; iprop_arg]]) (filter (fun '(_, _, i) => is_prop i) (r_svi (R noun))).

  (** node.tag == Tag.VERB and not any([node.is_inf_to, node.cannot_be_transitive]) *)
  Definition main_verb (r : nat) : bool := tag_eqb (n_tag (h r)) VERB && negb (n_inf_to (h r) || cannot_be_transitive R r).
  (** semantics/semantic_tuple_extractor.py:43-66 [__call__] *)
  Definition extract (nodes : list nat) : res (list stuple) :=
    let! first := gather (fun r => if main_verb r then stuples_from_verbs_subjs_objs r else Ok []) nodes in
    let blocked := flat_map (fun r => if main_verb r then blocked_by r else []) nodes in
    let! second := gather (fun r =>
        if main_verb r then
          let! a := stuples_from_subjs_objs r in
          let! b := stuples_from_iobj r in
          Ok (a ++ b)
        else if is_noun r then
          let! a := stuples_from_iprops r in
          let! b := stuples_from_copula_props r in
          let! c := stuples_from_pp_props r in
          let! d := stuples_from_naked_adjs r in
          Ok (a ++ b ++ c ++ d)
        else Ok []) (filter (fun r => negb (existsb (Nat.eqb r) blocked)) nodes) in
    let! third := gather (fun r => if tag_eqb (n_tag (h r)) VERB && negb (cannot_be_transitive R r) then stuples_from_objs r else Ok []) nodes in
    Ok (first ++ second ++ third).
End Extractor.

(** * pipeline/logic_pipeline.py *)

(** Word lists and language model of a LogicPipeline: logic_pipeline.py:22-41. [lp_lx] has the tables of the Lemmatizer and
    the reversed past participles. *)
Section Logic.
  Context (U : udb) (P L : Type) (leL : L -> L -> bool) (zero : P) (ninf : L) (tokenize : option str -> res (list str)) (m : lm P L).
  Context (lx : lexicon) (nouns : list str).
  Notation lemmatize := (lemmatize U P L leL zero ninf m lx).
  Notation standardize := (standardize U P L leL zero ninf m).
  Notation past_participle := (past_participle P L leL zero ninf tokenize m (lx_lemma_pp lx)).

  (** logic_pipeline.py:58-60 *)
  Definition normalize_nodes (h : heap) (nodes : list nat) : res heap :=
    foldM (fun h r =>
      let! standard := standardize (n_standard (h r)) in
      let! ls := lemmatize standard (n_tag (h r)) in
      Ok (upd h r (set_norm (h r) standard (fst ls) (snd ls)))) h nodes.
  (** logic_pipeline.py:65-66 *)
  Definition canonicalize_nodes (h : heap) (nodes : list nat) : res heap :=
    foldM (fun h r => let! n := canonicalize lemmatize (h r) in Ok (upd h r n)) h nodes.
  (** logic_pipeline.py:54-69 [__logic_process]. When there is no tree there is no node, and no step uses the tree. *)
  Definition logic_process (tokens : list str) (tags : list tag) (idx_tree : option tree) (chunk_common_nouns : bool)
    : res (heap * relheap * dict nat nat * list stuple) :=
    let! (h, node_dict, node_tree) := nodify U tokens tags idx_tree in
    let nodes := dvalues node_dict in
    let t := match node_tree with Some t => t | None => new_tree 0 end in
    let! h := normalize_nodes h nodes in
    let h := fold_left (fix_node (lx_adjs lx) nouns t) nodes h in
    let! h := (if chunk_common_nouns then chunk h t nodes else Ok h) in
    let! h := canonicalize_nodes h nodes in
    let R := find_args h t (fun _ => new_rels) nodes in
    let! stuples := extract h R past_participle nodes in
    Ok (h, R, node_dict, stuples).

  (** zip(a, b, c) *)
  Fixpoint zip3 {A B C} (a : list A) (b : list B) (c : list C) : list (A * B * C) :=
    match a, b, c with x :: a', y :: b', z :: c' => (x, y, z) :: zip3 a' b' c' | _, _, _ => [] end.
  (** logic_pipeline.py:43-52 [_logic_process]; [list(zip(...))] with a list of the same length as token_lists *)
  Definition logic_process_all (token_lists : list (list str)) (tags : list (list tag)) (idx_trees : list (option tree))
      (chunk_common_nouns : bool) (nb_processes : Z) : res (list (dict nat nat) * list (list stuple)) :=
    let! results := run_multithreads (fun '(tokens, tags, tree) =>
        let! (_, _, d, s) := logic_process tokens tags tree chunk_common_nouns in Ok (d, s))
      (zip3 token_lists tags idx_trees) nb_processes in
    Ok (map fst results, map snd results).
End Logic.
