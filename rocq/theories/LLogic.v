(** Proofs about the logic part of the pipeline: it does not raise. *)
From Coq Require Import Ascii String.
From Coq Require Import List NArith ZArith Arith Bool Lia Permutation.
From Verif Require Import PyBase Regex MUtils MTree MParser MNgram MLangModel MNormal MNode MSem SNormal SLangModel LBase SUtils STree SParser SNode LText LRegex LTree LLangModel LNormal LNormal2 LNormal3 LNode LNode2 LNode3 SSem LSem MPipeline SPipeline.
Import ListNotations.
Local Open Scope nat_scope.



Section Total.
  Context (U : udb) (P L : Type) (leL : L -> L -> bool) (zero : P) (ninf : L) (m : lm P L).
  Context (BO : best_ok P L leL zero ninf m).
  Context (NB : forall x, lm_contains P L m x = true -> nonblank U x).
  Context (lx : lexicon).
  Lemma index_nonblank b : nonblank U b -> exists l, index (split_ws (u_space U) b) (-1) = Ok l.
  Proof.
    intros (c & Hc & Hs). pose proof (split_ws_concat (u_space U) b) as E. destruct (split_ws (u_space U) b) as [|w l] eqn:Es.
    - cbn in E. assert (I : In c (filter (fun c => negb (u_space U c)) b)) by (apply filter_In; rewrite Hs; auto). rewrite <- E in I. destruct I.
    - destruct (snoc (w :: l)) as (q & x & ->); [discriminate|]. rewrite LNormal.index_last. eauto.
  Qed.
  Lemma best_candidate_total st es t : exists o, best_candidate U P L leL zero ninf m st es t = Ok o.
  Proof.
    unfold best_candidate. set (cs := map (fun e => st ++ e) es). set (tb := match t with VERB => verb_contexts | _ => cs end).
    assert (G : exists o, (let! best := best_ngram P L leL zero ninf m (flat_map (fun c => map (fun t => join (lit " ") [t; c]) tb) cs) in
      match best with Some b => let! l := index (split_ws (u_space U) b) (-1) in Ok (Some l) | None => best_ngram P L leL zero ninf m cs end) = Ok o).
    { destruct (BO (flat_map (fun c => map (fun t => join (lit " ") [t; c]) tb) cs)) as [[_ ->]|(x & Hx & -> & Ha)]; cbn [rbind].
      - destruct (BO cs) as [[_ ->]|(x & Hx & -> & Ha)]; eauto.
      - destruct (index_nonblank x (NB x Ha)) as [l ->]. cbn [rbind]. eauto. }
    destruct es as [|e [|e2 es]]; [exact G|eauto|exact G].
  Qed.
  Lemma lm_lemma_total w t st es s : exists r, lm_lemma U P L leL zero ninf m lx w t st es s = Ok r.
  Proof.
    unfold lm_lemma. destruct (best_candidate_total st es t) as [[b|] ->]; cbn [rbind]; [eauto|]. destruct (token_prefix st (lx_prefixes lx)) as [[p b]|]; [|eauto].
    destruct (best_candidate_total b es t) as [[b'|] ->]; cbn [rbind]; eauto.
  Qed.
  Lemma some_total {A} (x : res A) : (exists r, x = Ok r) -> exists o, some_res x = Ok o.
  Proof. intros [r ->]. cbn. eauto. Qed.
  Lemma on_start_total w e n f : e <> [] -> (forall start, start <> [] -> exists o, f start = Ok o) -> exists o : option lemma_result, on_start w e n f = Ok o.
  Proof. intros He Hf. unfold on_start. destruct (token_start w e n) as [start|] eqn:E; [|eauto]. apply token_start_spec in E; [|exact He]. apply Hf. apply E. Qed.
  Lemma after_total w t es s start : start <> [] -> exists o, after_consonant U P L leL zero ninf m lx w t es s start = Ok o.
  Proof.
    intros Hs. unfold after_consonant, ends_with_consonant. destruct (snoc start Hs) as (q & c & ->). rewrite LNormal.index_last. cbn [rbind].
    destruct (char_in c CONSONANTS); [|eauto]. apply some_total, lm_lemma_total.
  Qed.
  Lemma last_total w t es s start : start <> [] -> exists o, last_kept U P L leL zero ninf m lx w t es s start = Ok o.
  Proof. intros Hs. unfold last_kept. destruct (snoc start Hs) as (q & c & ->). rewrite LNormal.index_last. cbn [rbind]. apply some_total, lm_lemma_total. Qed.
  Lemma doubled_total w t s start : exists o, doubled U P L leL zero ninf m lx w t s start = Ok o.
  Proof. unfold doubled. destruct (vowel_double_consonant_endings start); [|eauto]. apply some_total, lm_lemma_total. Qed.
  Lemma plain_total w t es s start : exists o, plain U P L leL zero ninf m lx w t es s start = Ok o.
  Proof. apply some_total, lm_lemma_total. Qed.
  Lemma first_rule_total rules d : Forall (fun rule : unit -> rule_result => exists o, rule tt = Ok o) rules -> exists r, first_rule rules d = Ok r.
  Proof. induction 1 as [|f rules [o E] _ IH]; cbn [first_rule]; [eauto|]. rewrite E. cbn [rbind]. destruct o; eauto. Qed.
  Ltac rule := apply on_start_total; [discriminate|intros start Hs; try match goal with |- context [if ?b then _ else _] => destruct b; [eauto; fail|] end;
    first [apply after_total; exact Hs|apply last_total; exact Hs|apply doubled_total|apply plain_total]].
  Theorem lemmatize_total word t : exists r, lemmatize U P L leL zero ninf m lx word t = Ok r.
  Proof.
    unfold lemmatize. destruct (full_match _ _); [eauto|]. destruct (irregular_lemma _ _ _); [eauto|]. cbv zeta.
    match goal with |- context [match ?x with Some r => Ok r | None => _ end] => destruct x; [eauto|] end.
    destruct t; eauto; apply first_rule_total.
    - unfold adj_rules. repeat match goal with |- Forall _ (_ :: _) => constructor | |- Forall _ [] => constructor end; rule.
    - unfold noun_rules. repeat match goal with |- Forall _ (_ :: _) => constructor | |- Forall _ [] => constructor end; rule.
    - unfold verb_rules. repeat match goal with |- Forall _ (_ :: _) => constructor | |- Forall _ [] => constructor end; rule.
  Qed.

  Context (HT : total_order leL) (HA : antisym leL) (tokenize : option str -> res (list str)) (tn : list str) (Htn : tokenize None = Ok tn) (nouns : list str).
  Lemma normalize_total h nodes : exists h', normalize_nodes U P L leL zero ninf m lx h nodes = Ok h'.
  Proof.
    unfold normalize_nodes. revert h. induction nodes as [|r nodes IH]; intros h; cbn [foldM]; [eauto|].
    destruct (standardize_spec U P L leL zero ninf m BO (n_standard (h r))) as (st & -> & _). cbn [rbind].
    destruct (lemmatize_total st (n_tag (h r))) as [ls ->]. cbn [rbind]. apply IH.
  Qed.
  Lemma canonicalize_total h nodes : exists h', canonicalize_nodes U P L leL zero ninf m lx h nodes = Ok h'.
  Proof.
    unfold canonicalize_nodes. revert h. induction nodes as [|r nodes IH]; intros h; cbn [foldM]; [eauto|].
    destruct (canonicalize_ok (lemmatize U P L leL zero ninf m lx) (h r)) as [n ->]; [intros _; apply lemmatize_total|]. cbn [rbind]. apply IH.
  Qed.
  Definition pp (l : str) : str := match past_participle P L leL zero ninf tokenize m (lx_lemma_pp lx) l with Ok r => r | Err _ => [] end.
  Lemma pp_ok l : past_participle P L leL zero ninf tokenize m (lx_lemma_pp lx) l = Ok (pp l).
  Proof. unfold pp. destruct (past_participle_spec P L leL zero ninf tokenize m HT HA tn Htn (lx_lemma_pp lx) l) as (r & -> & _). reflexivity. Qed.
  Lemma chunk_none h t : chunk h t [] = Ok h.
  Proof. reflexivity. Qed.
  Theorem logic_total tokens tags idx_tree b :
    (idx_tree = None \/ exists root h t, idx_tree = Some t /\ length tags = length tokens /\ parse_ok (length tokens) root h /\ registered root h = Ok t) ->
    exists r, logic_process U P L leL zero ninf tokenize m lx nouns tokens tags idx_tree b = Ok r.
  Proof.
    intros HI. unfold logic_process.
    assert (N : exists H d nt, nodify U tokens tags idx_tree = Ok (H, d, nt) /\ forall H', exists H'', chunk H' (match nt with Some t => t | None => new_tree 0 end) (dvalues d) = Ok H'').
    { destruct HI as [->|(root & h & t & -> & Ht & HP & Hr)].
      - do 3 eexists. split; [reflexivity|]. intros H'. eexists. apply chunk_none.
      - destruct (nodify_all U tokens tags root h t Ht HP Hr) as (H & d & nt & ref & E & _ & ND & _ & _ & _ & _ & _ & (h' & Hreg & Hac & _)).
        exists H, d, (Some nt). split; [exact E|]. intros H'.
        pose proof (registered_tree _ _ _ Hreg) as Ent; rewrite Ent; destruct (chunk_ok (t_root nt) h' H' (dvalues d) ND) as (H'' & E'' & _). eauto. }
    destruct N as (H & d & nt & -> & HC). cbn [rbind]. destruct (normalize_total H (dvalues d)) as [H1 ->]. cbn [rbind].
    set (t := match nt with Some t => t | None => new_tree 0 end) in *.
    assert (C : forall H', exists H'', (if b then chunk H' t (dvalues d) else Ok H') = Ok H'') by (intros H'; destruct b; eauto).
    destruct (C (fold_left (fix_node (lx_adjs lx) nouns t) (dvalues d) H1)) as [H2 ->]. cbn [rbind].
    destruct (canonicalize_total H2 (dvalues d)) as [H3 ->]. cbn [rbind].
    match goal with |- context [extract ?h ?R ?f ?n] => destruct (extract_ok h R f pp n pp_ok) as (l & -> & _) end. cbn [rbind]. eauto.
  Qed.
End Total.
