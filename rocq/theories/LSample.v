(** Proofs about the logic on labelled sentences. *)
From Coq Require Import Ascii String.
From Coq Require Import List NArith ZArith Arith Bool Lia Permutation.
From Verif Require Import PyBase Regex MUtils MTree MVector MParser MNgram MLangModel MNormal MNode MSem MLabelled MTrain MPipeline MSample.
From Verif Require Import SUtils SNormal SLangModel STree SNode SArgs SSem SParser SPipeline SLabelled STrain SSample.
From Verif Require Import LBase LText LUtils LTree LParser LOracle LNode LNode2 LNode3 LSem LLangModel LNormal LNormal2 LLogic LPipeline LTrain LOrder LOrder2 LOrder3 PArgs.
Import ListNotations.
Local Open Scope nat_scope.

(** * The labelled sentence *)
Lemma projective_parse tuples : projective_tree tuples -> labelled_parse tuples.
Proof. intros H. constructor; [apply (one_root _ H)|apply (has_head _ H)|apply (no_cycle _ H)]. Qed.

Lemma gold_children : forall tuples k, Forall (fun i => k <= i) (map a_child (flat_map gold_of (enum_from k tuples))) /\
  NoDup (map a_child (flat_map gold_of (enum_from k tuples))).
Proof.
  induction tuples as [|t l IH]; intros k; cbn [enum_from flat_map map]; [split; constructor|].
  destruct (IH (S k)) as [F N]. rewrite map_app.
  assert (G : gold_of (k, t) = [] \/ exists d p, gold_of (k, t) = [(d, p, k)]).
  { unfold gold_of. destruct (_ && _); [right; eauto|left; reflexivity]. }
  assert (F' : Forall (fun i => k <= i) (map a_child (flat_map gold_of (enum_from (S k) l)))) by (eapply Forall_impl; [|exact F]; cbn; intros; lia).
  destruct G as [->|(d & p & ->)]; cbn [map app a_child]; [auto|].
  split; [constructor; [cbn; lia|exact F']|]. constructor; [|exact N]. intros H. rewrite Forall_forall in F. specialize (F _ H). cbn in F. lia.
Qed.
Lemma gold_NoDup tuples : NoDup (map a_child (gold tuples)).
Proof. exact (proj2 (gold_children tuples 0)). Qed.

Section Labelled.
  Context (tuples : list token_tuple) (HP : labelled_parse tuples).
  Lemma lp_acyclic : acyclic (gold tuples).
  Proof. intros x H. apply path_dominates in H. exact (lp_no_cycle _ HP x H). Qed.
  Lemma lp_valid_lt i : valid tuples i -> i < length tuples.
  Proof. intros (t & E & _). apply nth_error_Some. congruence. Qed.
  Lemma lp_ends l p c : In (l, p, c) (gold tuples) -> valid tuples p /\ valid tuples c.
  Proof.
    intros H. apply gold_In in H. destruct H as (t & E & H1 & H2 & H3 & H4). cbn in *. split; [|exists t; auto].
    destruct (lp_head _ HP c t E H4 H3) as (p' & Ep & Hv). assert (p' = p) by lia. subst. exact Hv.
  Qed.
  Lemma labelled_ok : exists r, gold_root tuples = Some r /\ parse_ok (length tuples) r (gold tuples) /\
    make_labelled tuples = Ok {| l_tokens := map tt_token tuples; l_tags := map tt_tag tuples; l_deps := map tt_dep tuples; l_tree := Some (tree_of r (gold tuples)) |}.
  Proof.
    destruct (lp_root _ HP) as (r & t & Er & Ed & Hu).
    assert (HR : rooted tuples) by (exists t; split; [eapply nth_error_In; exact Er|exact Ed]).
    destruct (find_rooted _ HR) as (r' & t' & Er' & Et' & EF). pose proof (Hu _ _ Er' Et'). subst r'. rewrite Er in Er'. injection Er' as <-.
    exists r. unfold gold_root. rewrite EF. split; [reflexivity|]. split.
    - split; [|split; [|split; [|split]]].
      + intros [[l p] c] H. destruct (lp_ends _ _ _ H) as [H1 H2]. cbn. split; apply lp_valid_lt; assumption.
      + exact lp_acyclic.
      + apply nth_error_Some. congruence.
      + intros H. apply in_map_iff in H. destruct H as ([[l p] c] & E & H). cbn in E. subst c. apply gold_In in H. destruct H as (t' & E' & _ & _ & H & _). cbn in E'. congruence.
      + intros Hne. destruct (gold tuples) as [|[[l p] c] G] eqn:EG; [congruence|]. rewrite <- EG in *. clear Hne.
        destruct (source_above _ lp_acyclic p) as (z & Hz & Hn).
        assert (Hk : exists l' y, In (l', z, y) (gold tuples)) by (destruct Hz as [->|Hz]; [exists l, c; rewrite EG; left; reflexivity|inversion Hz; eauto]).
        destruct Hk as (l' & y & Hk). assert (z = r); [|subst; change r with (a_parent (l', r, y)); apply in_map; exact Hk].
        destruct (lp_ends _ _ _ Hk) as [(tz & Ez & Vz) _]. apply (Hu z tz Ez). destruct (dep_eqb (tt_dep tz) ROOT) eqn:ED; [apply dep_eqb_ok; exact ED|].
        assert (Hd : tt_dep tz <> ROOT) by (intros E; apply dep_eqb_ok in E; congruence).
        destruct (lp_head _ HP z tz Ez Vz Hd) as (q & Eq & _). exfalso. apply Hn. change z with (a_child (tt_dep tz, q, z)). apply in_map. apply gold_In.
        exists tz. cbn. auto.
    - unfold make_labelled. rewrite EF. match goal with |- context [foldM ?g _ _] => change g with read_gold end.
      rewrite fold_gold_ok; [reflexivity|]. intros l c H. apply (lp_no_cycle _ HP c). eapply dom_one. exact H.
  Qed.
End Labelled.

(** * The tuples of a sentence without arcs *)
Section Logic.
  Context (U : udb) (P L : Type) (leL : L -> L -> bool) (zero : P) (ninf : L) (m : lm P L) (lx : lexicon) (nouns : list str).
  Notation logic := (logic_process U P L leL zero ninf (lm_tokenize U) m lx nouns).
  Notation sample := (test_sample U P L leL zero ninf m lx nouns).

  Lemma sample_ok nb tuples l : (1 <= nb)%Z -> make_labelled_named tuples = Ok l ->
    sample nb tuples = match logic (l_tokens l) (l_tags l) (l_tree l) true with Ok (_, _, _, s) => Ok s | Err _ => Err IndexError end.
  Proof.
    intros Hn El. unfold test_sample. rewrite El. cbn [rbind]. unfold logic_process_all. cbn [zip3].
    match goal with |- context [run_multithreads ?f _ nb] => set (F := f) end.
    assert (K : run_multithreads F [(l_tokens l, l_tags l, l_tree l)] nb =
      match logic (l_tokens l) (l_tags l) (l_tree l) true with Ok (_, _, d, s) => Ok [(d, s)] | Err _ => Ok [] end).
    { destruct (logic (l_tokens l) (l_tags l) (l_tree l) true) as [[[[h R] d] s]|e] eqn:E.
      - apply run_multithreads_total; [exact Hn|cbn; lia|]. cbn [mapM]. unfold F. rewrite E. reflexivity.
      - unfold run_multithreads. destruct (divide_list_ok [(l_tokens l, l_tags l, l_tree l)] nb Hn) as (ls & Els & C); [cbn; lia|]. rewrite Els. cbn [rbind]. f_equal.
        assert (A : forall x, In x ls -> thread_output F x = []).
        { intros x Hx. assert (x = [] \/ x = [(l_tokens l, l_tags l, l_tree l)]) as [->| ->].
          { apply in_split in Hx. destruct Hx as (a & b & ->). rewrite concat_app in C. cbn [concat] in C.
            destruct (concat a) as [|a1 [|? ?]], x as [|x1 [|? ?]], (concat b) as [|b1 [|? ?]]; cbn in C; try discriminate; auto; injection C as ->; auto. }
          - reflexivity.
          - unfold thread_output. cbn [mapM]. unfold F. rewrite E. reflexivity. }
        clear - A. induction ls as [|y ls IH]; [reflexivity|]. cbn [flat_map]. rewrite (A y (or_introl eq_refl)). apply IH. intros z Hz. apply A. right. exact Hz. }
    rewrite K. destruct (logic (l_tokens l) (l_tags l) (l_tree l) true) as [[[[h R] d] s]|e]; reflexivity.
  Qed.

  Context (pp : str -> str).
  Hypothesis Hpp : forall l, past_participle P L leL zero ninf (lm_tokenize U) m (lx_lemma_pp lx) l = Ok (pp l).
  Lemma no_relations H nodes v : let R := find_args H (new_tree 0) (fun _ => new_rels) nodes in
    (forall a x, ~ In x (r_list (R v) a)) /\ (forall e, ~ In e (r_svi (R v))) /\ (forall e, ~ In e (r_copulas (R v))) /\ (forall e, ~ In e (r_pps (R v))).
  Proof.
    intros R. assert (E : registered 0 [] = Ok (new_tree 0)) by reflexivity.
    destruct (C63_subjects_objects H 0 [] _ nodes E v 0) as [_ _].
    destruct (C73_other_arguments H 0 [] _ nodes E v) as (B1 & B2 & B3 & B4 & B5 & B6 & B7 & B8 & B9).
    assert (A : forall c l p, ~ attached [] nodes c l p) by (intros c l p [_ K]; discriminate).
    assert (D : forall l x, ~ dependent [] nodes l v x) by (intros l x (y & K & _); exact (A _ _ _ K)).
    split; [|split; [|split]].
    - intros a x K. destruct a.
      + apply (C63_subjects_objects H 0 [] _ nodes E v x) in K. inversion K; subst; eapply A; eassumption.
      + apply (C63_subjects_objects H 0 [] _ nodes E v x) in K. inversion K; subst; eapply A; eassumption.
      + apply B2 in K. exact (D _ _ K).
      + apply B3 in K. exact (D _ _ K).
      + apply B4 in K. exact (D _ _ K).
      + apply B1 in K. exact (D _ _ K).
      + apply B5 in K. inversion K; subst; eapply A; eassumption.
      + apply B6 in K. inversion K; subst; eapply A; eassumption.
    - intros e K. apply B7 in K. inversion K; subst; try (eapply A; eassumption).
    - intros e K. apply B8 in K. inversion K; subst; try (eapply A; eassumption).
    - intros e K. apply B9 in K. inversion K; subst; try (eapply A; eassumption).
  Qed.
  Lemma no_arc_no_tuple H nodes s : extract H (find_args H (new_tree 0) (fun _ => new_rels) nodes) (past_participle P L leL zero ninf (lm_tokenize U) m (lx_lemma_pp lx)) nodes = Ok s -> s = [].
  Proof.
    intros E. set (R := find_args H (new_tree 0) (fun _ => new_rels) nodes) in *.
    destruct (extract_ok H R _ pp nodes Hpp) as (l & E' & Hl). rewrite E in E'. injection E' as <-.
    destruct s as [|x s]; [reflexivity|]. exfalso. assert (T : tuple_of H R pp nodes x) by (apply Hl; left; reflexivity).
    assert (N : forall v a y, ~ In y (r_list (R v) a)) by (intros v; apply (no_relations H nodes v)).
    assert (N1 : forall v y, ~ In y (r_svi (R v))) by (intros v; apply (no_relations H nodes v)).
    assert (N2 : forall v y, ~ In y (r_copulas (R v))) by (intros v; apply (no_relations H nodes v)).
    assert (N3 : forall v y, ~ In y (r_pps (R v))) by (intros v; apply (no_relations H nodes v)).
    inversion T; subst; repeat match goal with K : subj_noun _ _ _ _ |- _ => destruct K | K : obj_noun _ _ _ _ |- _ => destruct K end;
      first [eapply N; eassumption|eapply N1; eassumption|eapply N2; eassumption|eapply N3; eassumption].
  Qed.
  Lemma no_arc_logic tokens tags r b H R d s : logic tokens tags (Some (tree_of r [])) b = Ok (H, R, d, s) -> s = [].
  Proof.
    unfold logic_process, nodify. cbn [t_len]. change (t_len (tree_of r []) =? 1) with true. cbv iota.
    destruct (index tokens _) as [tok|e]; cbn [rbind]; [|discriminate]. destruct (index tags _) as [tg|e]; cbn [rbind]; [|discriminate].
    set (nodes := dvalues _). destruct (normalize_nodes _ _ _ _ _ _ _ _ _ _) as [H1|e]; cbn [rbind]; [|discriminate].
    set (H2 := fold_left _ nodes H1). destruct (if b then _ else _) as [H3|e]; cbn [rbind]; [|discriminate].
    destruct (canonicalize_nodes _ _ _ _ _ _ _ _ _ _) as [H4|e]; cbn [rbind]; [|discriminate].
    destruct (extract _ _ _ _) as [s'|e] eqn:E; cbn [rbind]; [|discriminate]. intros K. injection K as <- <- <- <-. eapply no_arc_no_tuple. exact E.
  Qed.
  Lemma no_tree_logic tokens tags b H R d s : logic tokens tags None b = Ok (H, R, d, s) -> s = [].
  Proof. unfold logic_process. cbn. destruct b; cbn; intros K; injection K as <- <- <- <-; reflexivity. Qed.
End Logic.

Lemma parse_ok_set n r h h' : same_set h h' -> parse_ok n r h -> parse_ok n r h'.
Proof.
  intros S (P1 & P2 & P3 & P4 & P5). split; [intros a Ha; apply P1; apply S; exact Ha|]. split; [apply (acyclic_set h); assumption|]. split; [exact P3|]. split.
  - intros K. apply P4. apply in_map_iff in K. destruct K as (a & <- & K). apply in_map. apply S. exact K.
  - intros N. assert (N' : h <> []) by (intros ->; destruct h' as [|a ?]; [congruence|]; destruct (proj2 (S a) (or_introl eq_refl))).
    apply P5 in N'. apply in_map_iff in N'. destruct N' as (a & <- & K). apply in_map. apply S. exact K.
Qed.

Section Learned.
  Context (V : Type) (v0 : V) (U : udb) (cs : charset) (ws : wordset V) (M : models V).
  Context (P L : Type) (leL : L -> L -> bool) (zero : P) (ninf : L) (m : lm P L) (lx : lexicon) (nouns : list str).
  Context (HT : total_order leL) (HA : antisym leL) (BO : best_ok P L leL zero ninf m) (NB : forall x, lm_contains P L m x = true -> nonblank U x).
  Notation logic := (logic_process U P L leL zero ninf (lm_tokenize U) m lx nouns).
  Notation sample := (test_sample U P L leL zero ninf m lx nouns).
  Notation pp := (LLogic.pp P L leL zero ninf m lx (lm_tokenize U)).
  Let Hpp := pp_ok P L leL zero ninf m lx HT HA (lm_tokenize U) [[]] eq_refl.

  Lemma sample_total nb tuples : (1 <= nb)%Z -> labelled_parse tuples -> exists r H R d s, gold_root tuples = Some r /\ parse_ok (length tuples) r (gold tuples) /\
    logic (map tt_token tuples) (map tt_tag tuples) (Some (tree_of r (gold tuples))) true = Ok (H, R, d, s) /\ sample nb (map named tuples) = Ok s.
  Proof.
    intros Hn HP. destruct (labelled_ok tuples HP) as (r & Er & HO & El). 
    destruct (logic_total U P L leL zero ninf m BO NB lx HT HA (lm_tokenize U) [[]] eq_refl nouns (map tt_token tuples) (map tt_tag tuples) (Some (tree_of r (gold tuples))) true) as ([[[H R] d] s] & E).
    { right. exists r, (gold tuples), (tree_of r (gold tuples)). rewrite !map_length. split; [reflexivity|]. split; [reflexivity|]. split; [exact HO|]. apply registered_of. apply HO. }
    exists r, H, R, d, s. split; [exact Er|]. split; [exact HO|]. split; [exact E|]. rewrite <- labelled_named in El. rewrite (sample_ok U P L leL zero ninf m lx nouns nb _ _ Hn El). cbn [l_tokens l_tags l_tree]. rewrite E. reflexivity.
  Qed.

  (** any tree with the labelled arcs gives the same tuples *)
  Lemma sample_same nb tuples h r tree H R d s : (1 <= nb)%Z -> labelled_parse tuples -> single_dependents tuples ->
    NoDup h -> (forall a, In a h <-> labelled_arc tuples a) -> gold_root tuples = Some r ->
    tree = match h with [] => None | _ => Some (tree_of r h) end \/ tree = Some (tree_of r h) ->
    logic (map tt_token tuples) (map tt_tag tuples) tree true = Ok (H, R, d, s) ->
    exists s', sample nb (map named tuples) = Ok s' /\ forall x, In x s <-> In x s'.
  Proof.
    intros Hn HP HS Hnd Hh Er HTr E. destruct (sample_total nb tuples Hn HP) as (r' & H' & R' & d' & s' & Er' & HO & E' & Es). rewrite Er in Er'. injection Er' as <-.
    exists s'. split; [exact Es|].
    assert (S : same_set h (gold tuples)) by (intros a; rewrite Hh, gold_In; reflexivity).
    destruct h as [|a0 h0] eqn:EH.
    - assert (EG : gold tuples = []) by (destruct (gold tuples) as [|a ?]; [reflexivity|destruct (proj2 (S a) (or_introl eq_refl))]). rewrite EG in E'.
      apply (no_arc_logic U P L leL zero ninf m lx nouns pp Hpp) in E'. subst s'.
      assert (s = []) as ->; [|intros x; reflexivity]. destruct HTr as [->| ->]; [exact (no_tree_logic U P L leL zero ninf m lx nouns _ _ _ _ _ _ _ E)|exact (no_arc_logic U P L leL zero ninf m lx nouns pp Hpp _ _ _ _ _ _ _ _ E)].
    - rewrite <- EH in *. assert (tree = Some (tree_of r h)) by (rewrite EH in HTr |- *; destruct HTr; assumption). subst tree.
      assert (Hpm : Permutation h (gold tuples)) by (apply NoDup_Permutation; [exact Hnd|apply (NoDup_map_inv a_child), gold_NoDup|exact S]).
      assert (HO' : parse_ok (length tuples) r h) by (apply (parse_ok_set _ _ (gold tuples)); [apply same_set_sym; exact S|exact HO]).
      destruct (logic_same U P L leL zero ninf (lm_tokenize U) m lx nouns pp Hpp (map tt_token tuples) (map tt_tag tuples) r h (gold tuples) (tree_of r h) (tree_of r (gold tuples)) true H R d s)
        as (R2 & s2 & E2 & _ & S2).
      + rewrite !map_length. reflexivity.
      + rewrite map_length. exact HO'.
      + exact Hpm.
      + eapply Permutation_NoDup; [apply Permutation_map; symmetry; exact Hpm|apply gold_NoDup].
      + intros l p c c' Hl H1 H2. apply (HS l p c c' Hl); apply Hh; assumption.
      + apply registered_of. apply HO'.
      + apply registered_of. apply HO.
      + exact E.
      + rewrite E' in E2. injection E2 as _ _ _ <-. exact S2.
  Qed.
End Learned.
