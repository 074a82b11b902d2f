(** Model of scrappybara/syntax: node.py, nodifier.py, fixer.py, chunker.py, arg_finder.py, and of
    scrappybara/normalization/canonicalizer.py. *)
From Coq Require Import Ascii String.
From Coq Require Import List NArith ZArith Arith Bool.
From Verif Require Import PyBase Regex MUtils MTree MNormal.
Import ListNotations.
Local Open Scope nat_scope.

(** * node.py *)

(** syntax/node.py:4-60 [Node]. Node objects are compared and hashed by identity, and updated in place: they are
    designated by references (natural numbers), and their attributes are kept in two heaps. The first one has the attributes
    of lines 8-23, which describe the word ... *)
Record node := {
  n_idx : nat;
  n_original : str;
  n_tag : tag;
  n_particles : list str;
  n_inf_to : bool;
  n_standard : str;
  n_lemma : str;
  n_suffix : option suffix;
  n_chunk : option str;
  n_canon : str;
  n_active : option str
}.
(** ... and the second one the attributes of lines 24-42, which relate it to other nodes. The attributes of lines 30-37 and
    42 that are lists of nodes are indexed by their names. *)
Inductive attr : Set := A_subjs | A_objs | A_exists | A_props | A_iprops | A_iobjs | A_adjs | A_agents.
Definition attr_eq_dec (a b : attr) : {a = b} + {a <> b}.
Proof. decide equality. Defined.
Record rels := {
  r_and : list nat;
  r_or : list nat;
  r_aff : bool;
  r_list : attr -> list nat;
  r_svi : list (option nat * nat * nat);   (* subjs_verbs_iprops *)
  r_copulas : list (nat * nat);            (* copulas_props *)
  r_pps : list (nat * nat)                 (* pps_props *)
}.
Definition heap := nat -> node.
Definition relheap := nat -> rels.
(** the new value is computed before the function is made, so that reading evaluates nothing twice *)
Definition upd {A} (h : nat -> A) (r : nat) (v : A) : nat -> A := fun x => if x =? r then v else h x.

(** syntax/node.py:7-42 [__init__] *)
Definition new_node (U : udb) (idx : nat) (text : str) (t : tag) : node :=
  let standard := lower U text in
  {| n_idx := idx; n_original := text; n_tag := t; n_particles := []; n_inf_to := false; n_standard := standard;
     n_lemma := standard; n_suffix := None; n_chunk := None; n_canon := standard; n_active := None |}.
Definition new_rels : rels :=
  {| r_and := []; r_or := []; r_aff := true; r_list := fun _ => []; r_svi := []; r_copulas := []; r_pps := [] |}.

Definition set_particles (n : node) (ps : list str) (inf_to : bool) : node :=
  {| n_idx := n_idx n; n_original := n_original n; n_tag := n_tag n; n_particles := ps; n_inf_to := inf_to; n_standard := n_standard n;
     n_lemma := n_lemma n; n_suffix := n_suffix n; n_chunk := n_chunk n; n_canon := n_canon n; n_active := n_active n |}.
Definition set_tag (n : node) (t : tag) : node :=
  {| n_idx := n_idx n; n_original := n_original n; n_tag := t; n_particles := n_particles n; n_inf_to := n_inf_to n; n_standard := n_standard n;
     n_lemma := n_lemma n; n_suffix := n_suffix n; n_chunk := n_chunk n; n_canon := n_canon n; n_active := n_active n |}.
Definition set_norm (n : node) (standard lemma : str) (s : option suffix) : node :=
  {| n_idx := n_idx n; n_original := n_original n; n_tag := n_tag n; n_particles := n_particles n; n_inf_to := n_inf_to n; n_standard := standard;
     n_lemma := lemma; n_suffix := s; n_chunk := n_chunk n; n_canon := n_canon n; n_active := n_active n |}.
Definition set_chunk (n : node) (chunk : str) : node :=
  {| n_idx := n_idx n; n_original := n_original n; n_tag := n_tag n; n_particles := n_particles n; n_inf_to := n_inf_to n; n_standard := n_standard n;
     n_lemma := n_lemma n; n_suffix := n_suffix n; n_chunk := Some chunk; n_canon := n_canon n; n_active := n_active n |}.
Definition set_canon (n : node) (canon : str) (s : option suffix) (active : option str) : node :=
  {| n_idx := n_idx n; n_original := n_original n; n_tag := n_tag n; n_particles := n_particles n; n_inf_to := n_inf_to n; n_standard := n_standard n;
     n_lemma := n_lemma n; n_suffix := s; n_chunk := n_chunk n; n_canon := canon; n_active := active |}.

(** syntax/node.py:50-52 [cconjs], 54-56 [aggreg] *)
Definition cconjs (R : relheap) (r : nat) : list nat := r_and (R r) ++ r_or (R r).
Definition aggreg (R : relheap) (r : nat) : list nat := [r] ++ r_and (R r) ++ r_or (R r).
Definition nonempty {A} (l : list A) : bool := match l with [] => false | _ => true end.
(** syntax/node.py:58-60 [cannot_be_transitive] *)
Definition cannot_be_transitive (R : relheap) (r : nat) : bool :=
  nonempty (r_list (R r) A_props) || nonempty (r_list (R r) A_iprops) || nonempty (r_list (R r) A_exists).
(** truth value of a string or None *)
Definition truthy (o : option str) : bool := match o with Some (_ :: _) => true | _ => false end.
(** config.py:25 *)
Definition COMPOUND_JOIN : str := lit " ".

(** * nodifier.py *)

Section Nodifier.
  Context (U : udb) (tokens : list str) (tags : list tag) (t : tree).
  (** [s_next] is the reference of the next object; [s_dict] is node_dict and [s_black] is bl_idxs *)
  Record nstate := { s_next : nat; s_heap : heap; s_dict : dict nat nat; s_black : list nat }.
  (** node_dict[key] = node, for a node that has just been created *)
  Definition put_node (s : nstate) (key : nat) (n : node) (black : list nat) : nstate :=
    {| s_next := S (s_next s); s_heap := upd (s_heap s) (s_next s) n; s_dict := dset Nat.eqb key (s_next s) (s_dict s);
       s_black := s_black s ++ black |}.

  (** syntax/nodifier.py:25-28: tokens outside the tree *)
  Definition nodeps : list nat := filter (fun i => negb (has_node t i)) (seq 0 (length tokens)).
  (** syntax/nodifier.py:29-40: one turn of the loop that flattens tokens *)
  Definition flat_step (s : nstate) (p : nat * str) : res nstate :=
    let '(idx, token) := p in
    match t_children_of t idx, t_parent t idx with
    | [], Some (d, _) =>
      if dep_eqb d FLAT then
        let! anc := ancestors_via t idx FLAT in
        let! anc_idx := index anc 0 in
        let! words := mapM (fun i => index tokens (Z.of_nat i)) anc in
        let! tg := index tags (Z.of_nat idx) in
        Ok (put_node s anc_idx (new_node U idx (join COMPOUND_JOIN (words ++ [token])) tg) (idx :: anc))
      else Ok s
    | _, _ => Ok s
    end.
  (** syntax/nodifier.py:41-55: one turn of the loop that makes verbs with particles *)
  Definition part_step (s : nstate) (p : nat * str) : res nstate :=
    let '(idx, token) := p in
    match map snd (filter (fun '(d, _) => dep_eqb d PART) (t_children_of t idx)) with
    | [] => Ok s
    | particle_idxs =>
      let! tg := index tags (Z.of_nat idx) in
      let! n := foldM (fun n i =>
          let! tok := index tokens (Z.of_nat i) in
          Ok (if idx <? i then set_particles n (n_particles n ++ [lower U tok]) (n_inf_to n)
              else if str_eqb (lower U tok) (lit "to") then set_particles n (n_particles n) true
              else n))
        (new_node U idx token tg) (isort Nat.leb particle_idxs) in
      Ok (put_node s idx n particle_idxs)
    end.
  (** syntax/nodifier.py:56-59: one turn of the loop that makes the remaining nodes *)
  Definition rest_step (s : nstate) (p : nat * str) : res nstate :=
    let '(idx, token) := p in
    if negb (dmem Nat.eqb idx (s_dict s)) && negb (existsb (Nat.eqb idx) (s_black s)) then
      let! tg := index tags (Z.of_nat idx) in
      Ok (put_node s idx (new_node U idx token tg) [])
    else Ok s.
  (** syntax/nodifier.py:60-65: the new tree *)
  Definition node_tree (d : dict nat nat) : res tree :=
    let! root := of_option KeyError (dget Nat.eqb (t_root t) d) in
    foldM (fun nt '(idx, r) =>
        foldM (fun nt '(l, c) => match dget Nat.eqb c d with Some rc => register_child nt l r rc | None => Ok nt end)
          nt (t_children_of t idx))
      (new_tree root) d.
  (** syntax/nodifier.py:66-68: nodes that are not functional, by index *)
  Definition content_nodes (h : heap) (nt : tree) (d : dict nat nat) : dict nat nat :=
    fold_left (fun acc r => if has_parent_via_set nt r FUNCTIONAL_DEPS then acc else dset Nat.eqb (n_idx (h r)) r acc) (dvalues d) [].
End Nodifier.

(** The heap before any object exists; its content is never read. *)
Definition empty_heap (U : udb) : heap := fun _ => new_node U 0 [] TPAD.
(** syntax/nodifier.py:13-69 [__call__] *)
Definition nodify (U : udb) (tokens : list str) (tags : list tag) (idx_tree : option tree) : res (heap * dict nat nat * option tree) :=
  match idx_tree with
  | None => Ok (empty_heap U, [], None)
  | Some t =>
    if t_len t =? 1 then
      let! token := index tokens (Z.of_nat (t_root t)) in
      let! tg := index tags (Z.of_nat (t_root t)) in
      Ok (upd (empty_heap U) 0 (new_node U (t_root t) token tg), [(t_root t, 0)], Some (new_tree 0))
    else
      let s0 := {| s_next := 0; s_heap := empty_heap U; s_dict := []; s_black := nodeps tokens t |} in
      let! s1 := foldM (flat_step U tokens tags t) s0 (enumerate tokens) in
      let! s2 := foldM (part_step U tokens tags t) s1 (enumerate tokens) in
      let! s3 := foldM (rest_step U tags) s2 (enumerate tokens) in
      let! nt := node_tree t (s_dict s3) in
      Ok (s_heap s3, content_nodes (s_heap s3) nt (s_dict s3), Some nt)
  end.

(** * fixer.py *)

(** syntax/fixer.py:11-21 [__call__] *)
Definition fix_node (adjs nouns : list str) (t : tree) (h : heap) (r : nat) : heap :=
  match t_children_of t r, t_parent t r with
  | [], Some (d, p) =>
    if (dep_eqb d CPL && tag_in (n_tag (h p)) NOUN_TAGS) || dep_in d PROP_DEPS then
      if str_in (n_lemma (h r)) adjs && tag_in (n_tag (h r)) NOUN_TAGS then upd h r (set_tag (h r) ADJ)
      else if str_in (n_lemma (h r)) nouns && tag_eqb (n_tag (h r)) ADJ then upd h r (set_tag (h r) NOUN)
      else h
    else h
  | _, _ => h
  end.

(** * chunker.py *)

Section Chunker.
  Context (h : heap) (t : tree).
  (** syntax/chunker.py:27-34: the loop that fills compound_nouns and have_parent *)
  Definition compound_step (s : dict nat (list nat) * list nat) (noun : nat) : dict nat (list nat) * list nat :=
    match t_parent t noun with
    | Some (d, p) =>
      if dep_eqb d CPL && negb (has_child_via_set t noun MARKER_DEPS) && (n_idx (h noun) <? n_idx (h p)) && tag_in (n_tag (h p)) NOUN_TAGS
      then (append_to_dict_list Nat.eqb (fst s) p noun, snd s ++ [noun])
      else s
    | None => s
    end.
  Definition compounds (nodes : list nat) : dict nat (list nat) * list nat :=
    fold_left compound_step (filter (fun n => tag_in (n_tag (h n)) NOUN_TAGS) nodes) ([], []).
  (** syntax/chunker.py:11-14 [_chunk_recursive]: the nouns it appends. The recursion is bounded by [fuel]. *)
  Fixpoint chunk_below (fuel : nat) (compound_nouns : dict nat (list nat)) (noun : nat) : res (list nat) :=
    match match dget Nat.eqb noun compound_nouns with Some l => l | None => [] end with
    | [] => Ok []
    | l =>
      match fuel with
      | O => Err OutOfFuel
      | S f => let! ls := mapM (fun c => let! b := chunk_below f compound_nouns c in Ok (c :: b)) l in Ok (concat ls)
      end
    end.
  (** syntax/chunker.py:7-18 [_chunk]. Fuel: each call is for a noun of smaller index. *)
  Definition chunk_of (compound_nouns : dict nat (list nat)) (noun : nat) : res str :=
    let! below := chunk_below (S (n_idx (h noun))) compound_nouns noun in
    let nouns := isort (fun a b => n_idx (h a) <=? n_idx (h b)) (noun :: below) in
    Ok (join COMPOUND_JOIN (map (fun n => n_lemma (h n)) nouns)).
End Chunker.
(** syntax/chunker.py:23-36 [__call__] *)
Definition chunk (h : heap) (t : tree) (nodes : list nat) : res heap :=
  let '(compound_nouns, have_parent) := compounds h t nodes in
  foldM (fun h' root => let! c := chunk_of h' compound_nouns root in Ok (upd h' root (set_chunk (h' root) c)))
    h (filter (fun n => dmem Nat.eqb n compound_nouns && negb (existsb (Nat.eqb n) have_parent)) nodes).

(** * canonicalizer.py *)

Section Canonicalizer.
  Context (lemmatize : str -> tag -> res (str * option suffix)).
  (** normalization/canonicalizer.py:6-9 [_particle_compound] *)
  Definition particle_compound (lemma : str) (n : node) : str :=
    match n_particles n with [] => lemma | ps => join COMPOUND_JOIN (lemma :: ps) end.
  (** normalization/canonicalizer.py:15-22 *)
  Definition object_to_subject : dict str str :=
    map (fun '(a, b) => (lit a, lit b)) [("me", "i"); ("you", "you"); ("her", "she"); ("him", "he"); ("us", "we"); ("them", "they")]%string.
  (** normalization/canonicalizer.py:27-45 [__call__] *)
  Definition canonicalize (n : node) : res node :=
    match n_tag n, dget str_eqb (n_lemma n) object_to_subject with
    | PRON, Some subj => Ok (set_canon n subj (n_suffix n) (n_active n))
    | _, _ =>
      match n_tag n, n_chunk n with
      | NOUN, Some (c :: chunk') => Ok (set_canon n (c :: chunk') (n_suffix n) (n_active n))
      | ADJ, _ =>
        let! ls := lemmatize (n_standard n) VERB in
        let active := match snd ls with Some PAST => Some (particle_compound (fst ls) n) | _ => n_active n end in
        Ok (set_canon n (particle_compound (n_lemma n) n) (snd ls) active)
      | VERB, _ => Ok (set_canon n (particle_compound (n_lemma n) n) (n_suffix n) (n_active n))
      | _, _ => Ok (set_canon n (n_lemma n) (n_suffix n) (n_active n))
      end
    end.
End Canonicalizer.

(** * arg_finder.py *)

Definition set_conjs (x : rels) (ands ors : list nat) : rels :=
  {| r_and := ands; r_or := ors; r_aff := r_aff x; r_list := r_list x; r_svi := r_svi x; r_copulas := r_copulas x; r_pps := r_pps x |}.
Definition set_neg (x : rels) : rels :=
  {| r_and := r_and x; r_or := r_or x; r_aff := false; r_list := r_list x; r_svi := r_svi x; r_copulas := r_copulas x; r_pps := r_pps x |}.
Definition add_list (x : rels) (a : attr) (l : list nat) : rels :=
  {| r_and := r_and x; r_or := r_or x; r_aff := r_aff x; r_list := fun b => if attr_eq_dec b a then r_list x a ++ l else r_list x b;
     r_svi := r_svi x; r_copulas := r_copulas x; r_pps := r_pps x |}.
Definition add_svi (x : rels) (e : option nat * nat * nat) : rels :=
  {| r_and := r_and x; r_or := r_or x; r_aff := r_aff x; r_list := r_list x; r_svi := r_svi x ++ [e]; r_copulas := r_copulas x; r_pps := r_pps x |}.
Definition add_copula (x : rels) (e : nat * nat) : rels :=
  {| r_and := r_and x; r_or := r_or x; r_aff := r_aff x; r_list := r_list x; r_svi := r_svi x; r_copulas := r_copulas x ++ [e]; r_pps := r_pps x |}.
Definition add_pps (x : rels) (e : nat * nat) : rels :=
  {| r_and := r_and x; r_or := r_or x; r_aff := r_aff x; r_list := r_list x; r_svi := r_svi x; r_copulas := r_copulas x; r_pps := r_pps x ++ [e] |}.
(** node.attr.extend(l), node.attr.append(e) *)
Definition extend (R : relheap) (r : nat) (a : attr) (l : list nat) : relheap := upd R r (add_list (R r) a l).

Section ArgFinder.
  Context (h : heap) (t : tree).
  (** syntax/arg_finder.py:9-15 [_register_subjs] *)
  Definition register_subjs (R : relheap) (verb subj : nat) : relheap :=
    fold_left (fun R v => extend R v A_subjs (aggreg R subj))
      ([verb] ++ filter (fun v => negb (has_child_via t v SUBJ)) (cconjs R verb)) R.
  (** syntax/arg_finder.py:18-24 [_register_objs] *)
  Definition register_objs (R : relheap) (verb obj : nat) : relheap :=
    fold_left (fun R v => extend R v A_objs (aggreg R obj))
      ([verb] ++ filter (fun v => negb (nonempty (t_children_of t v))) (cconjs R verb)) R.
  (** syntax/arg_finder.py:27-28 [_register_iobjs], 31-32 [_register_exists], 35-36 [_register_adjs] *)
  Definition register_iobjs (R : relheap) (verb iobj : nat) : relheap := extend R verb A_iobjs (aggreg R iobj).
  Definition register_exists (R : relheap) (verb exist : nat) : relheap := extend R verb A_exists (aggreg R exist).
  Definition register_adjs (R : relheap) (noun adj : nat) : relheap := extend R noun A_adjs (aggreg R adj).
  (** syntax/arg_finder.py:39-41 [_register_props_via_pp] *)
  Definition register_props_via_pp (R : relheap) (noun pp prop : nat) : relheap :=
    fold_left (fun R p => upd R noun (add_pps (R noun) (pp, p))) (aggreg R prop) R.
  (** syntax/arg_finder.py:44-46 [_register_props_via_copula] *)
  Definition register_props_via_copula (R : relheap) (subj copula prop : nat) : relheap :=
    fold_left (fun R '(s, p) => upd R s (add_copula (R s) (copula, p)))
      (flat_map (fun s => map (fun p => (s, p)) (filter (fun p => negb (has_child_via_set t p MARKER_DEPS)) (aggreg R prop))) (aggreg R subj)) R.
  (** syntax/arg_finder.py:49-57 [_register_iprops] *)
  Definition register_iprops (R : relheap) (verb iprop : nat) : relheap :=
    let R := extend R verb A_iprops (aggreg R iprop) in
    match child_via t verb OBJ with
    | Some obj =>
      fold_left (fun R '(o, ip) => upd R o (add_svi (R o) (child_via t verb SUBJ, verb, ip)))
        (flat_map (fun o => map (fun ip => (o, ip)) (aggreg R iprop)) (aggreg R obj)) R
    | None => R
    end.
  (** syntax/arg_finder.py:60-70 [_register_agents] *)
  Definition register_agents (R : relheap) (describee cpl marker : nat) : relheap :=
    fold_left (fun R c =>
        if str_eqb (n_canon (h marker)) (lit "by") then
          match t_parent t describee with
          | Some (d, _) => if dep_in d [PROP; CPL] then extend R describee A_agents [c] else R
          | None => R
          end
        else R) (aggreg R cpl) R.

  (** syntax/arg_finder.py:74-76 *)
  Definition reflexive_pronouns : list str :=
    map lit ["myself"; "yourself"; "yourselves"; "himself"; "herself"; "itself"; "ourself"; "ourselves"; "theirself"; "themselves"; "oneself"]%string.
  Definition relative_pronouns : list str := map lit ["that"; "which"; "who"]%string.
  (** syntax/arg_finder.py:171-180 [__resolve_relative_pron] *)
  Definition resolve_relative_pron (verb pron : nat) : option nat :=
    match t_parent t verb with
    | Some (d, p) =>
      if tag_eqb (n_tag (h pron)) PRON && str_in (n_canon (h pron)) relative_pronouns && dep_eqb d CPL &&
         tag_in (n_tag (h p)) NOUN_TAGS && negb (has_child_via_set t verb MARKER_DEPS)
      then Some p else None
    | None => None
    end.
  (** syntax/arg_finder.py:182-190 [__resolve_obj_reflexive_pron] *)
  Definition resolve_obj_reflexive_pron (verb pron : nat) : option nat :=
    if str_in (n_canon (h pron)) reflexive_pronouns then child_via t verb SUBJ else None.
  (** syntax/arg_finder.py:192-204 [__resolve_subj_reflexive_pron] *)
  Definition resolve_subj_reflexive_pron (verb pron : nat) : option nat :=
    if str_in (n_canon (h pron)) reflexive_pronouns then
      match t_parent t verb with
      | Some (d, p) => if dep_eqb d OBJ && tag_eqb (n_tag (h p)) VERB then child_via t p SUBJ else None
      | None => None
      end
    else None.

  (** syntax/arg_finder.py:81-83: aggregations *)
  Definition aggregate_step (R : relheap) (r : nat) : relheap := upd R r (set_conjs (R r) (children_via t r AND) (children_via t r OR)).

  (** naked_cpls, marked_cpls and the nodes *)
  Record astate := { a_rels : relheap; a_naked : list nat; a_marked : list nat }.
  Definition with_rels (s : astate) (R : relheap) : astate := {| a_rels := R; a_naked := a_naked s; a_marked := a_marked s |}.
  (** syntax/arg_finder.py:89-123: "analyze parent" *)
  Definition parent_step (R : relheap) (r : nat) : relheap :=
    match t_parent t r with
    | None => R
    | Some (d, parent) =>
      match d with
      | SUBJ =>
        match resolve_relative_pron parent r with
        | Some ref => register_subjs R parent ref
        | None => match resolve_subj_reflexive_pron parent r with Some ref => register_subjs R parent ref | None => register_subjs R parent r end
        end
      | OBJ =>
        match resolve_relative_pron parent r with
        | Some ref => register_objs R parent ref
        | None => match resolve_obj_reflexive_pron parent r with Some ref => register_objs R parent ref | None => register_objs R parent r end
        end
      | IOBJ => register_iobjs R parent r
      | EXIST => register_exists R parent r
      | PROP =>
        let R := extend R parent A_props (aggreg R r) in
        match child_via t parent SUBJ with
        | Some subj =>
          match resolve_relative_pron parent subj with
          | Some ref => register_props_via_copula R ref parent r
          | None => register_props_via_copula R subj parent r
          end
        | None => R
        end
      | IPROP => register_iprops R parent r
      | _ => R
      end
    end.
  (** syntax/arg_finder.py:128-130: negation *)
  Definition neg_step (R : relheap) (r : nat) : relheap :=
    fold_left (fun R '(d, _) => if dep_eqb d NEG then upd R r (set_neg (R r)) else R) (t_children_of t r) R.
  (** syntax/arg_finder.py:131-150: "analyze node", for a complement *)
  Definition cpl_step (s : astate) (r parent : nat) : astate :=
    let mark := child_via t r MARK in
    let cmark := child_via t r CMARK in
    let imark := child_via t r IMARK in
    let s := match mark, imark, cmark with
             | None, None, None => {| a_rels := a_rels s; a_naked := a_naked s ++ [r]; a_marked := a_marked s |}
             | _, _, _ => s
             end in
    let s := match mark with
             | None =>
               if tag_eqb (n_tag (h r)) ADJ then
                 let R := register_adjs (a_rels s) parent r in
                 with_rels s
                   (if tag_in (n_tag (h parent)) NOUN_TAGS then
                      match child_via t r PROP, n_suffix (h r) with
                      | Some prop, Some PAST => register_props_via_pp R parent r prop
                      | _, _ => R
                      end
                    else R)
               else s
             | Some mk =>
               {| a_rels := register_agents (a_rels s) parent r mk; a_naked := a_naked s; a_marked := a_marked s ++ [r] |}
             end in
    match cmark with
    | Some _ =>
      if tag_eqb (n_tag (h parent)) ADJ && tag_in (n_tag (h r)) NOUN_TAGS then with_rels s (register_adjs (a_rels s) r parent) else s
    | None => s
    end.
  (** syntax/arg_finder.py:87-150: one turn of the loop over direct dependencies *)
  Definition direct_step (s : astate) (r : nat) : astate :=
    let s := with_rels s (parent_step (a_rels s) r) in
    let s := with_rels s (neg_step (a_rels s) r) in
    match t_parent t r with
    | Some (CPL, parent) => cpl_step s r parent
    | _ => s
    end.
  (** syntax/arg_finder.py:152-166: one turn of the loop over long-distance dependencies *)
  Definition distant_step (naked marked : list nat) (R : relheap) (r : nat) : relheap :=
    match t_parent t r with
    | None => R
    | Some (d, parent) =>
      if existsb (Nat.eqb r) marked && tag_eqb (n_tag (h r)) VERB && negb (has_child_via t r SUBJ) && tag_eqb (n_tag (h parent)) VERB then
        match child_via t parent SUBJ with
        | Some subj => register_subjs R r subj
        | None => R
        end
      else if existsb (Nat.eqb r) naked && tag_in (n_tag (h parent)) NOUN_TAGS && negb (has_child_via t r OBJ) then
        match child_via t r SUBJ with
        | Some subj => if negb (str_in (n_canon (h subj)) relative_pronouns) then register_objs R r parent else R
        | None => R
        end
      else R
    end.
  (** syntax/arg_finder.py:78-166 [__call__]. children_via gives the lists of the tree themselves, not copies; they are
      not modified afterwards. *)
  Definition find_args (R : relheap) (nodes : list nat) : relheap :=
    let R := fold_left aggregate_step nodes R in
    let s := fold_left direct_step nodes {| a_rels := R; a_naked := []; a_marked := [] |} in
    fold_left (distant_step (a_naked s) (a_marked s)) nodes (a_rels s).
End ArgFinder.
