(** C81: the tuples of labelled sentences (pipeline/logic_pipeline.py:74-77). Each theorem is followed by a case that meets its hypotheses. *)
From Coq Require Import Ascii String.
From Coq Require Import List NArith ZArith Arith Bool Lia Permutation.
From Verif Require Import PyBase Regex MUtils MTree MVector MParser MNgram MLangModel MNormal MNode MSem MTokenizer MSentencizer MPipeline MLabelled MTrain MSample.
From Verif Require Import SUtils SNormal SLangModel SVector STree SNode SParser SPipeline SLabelled STrain SSample.
From Verif Require Import LBase LText LUdb LTree LVector LParser LParserCall LOracle LNode2 LNode3 LLogic LPipeline LTrain LOrder LSample PNormal PPipeline PTrain.
Import ListNotations.
Local Open Scope nat_scope.

(** * C81 *)
(** [m] is any language model read from files (of any contents, no n-gram being blank), [lx] and [nouns] are any word lists. A sentence with
    one root, heads in the sentence and no cycle always gives its tuples; one without a root gives no tuple; when the logic raises
    there is an IndexError. *)
Theorem C81_sample : forall (U : udb) (P L : Type) (leP : P -> P -> bool) (leL : L -> L -> bool) zero ninf float_of_str (log : P -> res L) min_counts files m lx nouns,
  total_order leL -> antisym leL -> (forall x, leL ninf x = true) -> (forall p l, log p = Ok l -> leL l ninf = false) ->
  load_lm U P L leP float_of_str log min_counts files = Ok m -> (forall x, lm_contains P L m x = true -> nonblank U x) ->
  let sample := test_sample U P L leL zero ninf m lx nouns in
  let logic := logic_process U P L leL zero ninf (lm_tokenize U) m lx nouns in
  (forall tuples, labelled_parse tuples -> exists root h t H R d s,
     (forall a, In a h <-> labelled_arc tuples a) /\ (exists tr, nth_error tuples root = Some tr /\ tt_dep tr = ROOT) /\ registered root h = Ok t /\
     logic (map tt_token tuples) (map tt_tag tuples) (Some t) true = Ok (H, R, d, s) /\
     forall nb_processes, (1 <= nb_processes)%Z -> sample nb_processes (map named tuples) = Ok s) /\
  (forall tuples, ~ rooted tuples -> forall nb_processes, (1 <= nb_processes)%Z -> sample nb_processes (map named tuples) = Ok []) /\
  (forall tuples l e, make_labelled_named tuples = Ok l -> logic (l_tokens l) (l_tags l) (l_tree l) true = Err e ->
     forall nb_processes, (1 <= nb_processes)%Z -> sample nb_processes tuples = Err IndexError) /\
  (forall tuples e, make_labelled_named tuples = Err e -> forall nb_processes, sample nb_processes tuples = Err e).
Proof.
  intros U P L leP leL zero ninf fl lg mc files m lx nouns HT HA H1 H2 H3 NB sample logic.
  pose proof (loaded_best _ _ _ _ _ zero _ _ _ _ _ _ HT H1 H2 H3) as BO. split; [|split; [|split]].
  - intros tuples HP. destruct (sample_total U P L leL zero ninf m lx nouns HT HA BO NB 1 tuples ltac:(lia) HP) as (r & H & R & d & s & Er & HO & E & _).
    exists r, (gold tuples), (tree_of r (gold tuples)), H, R, d, s. split; [intros a; apply gold_In|]. split.
    { unfold gold_root in Er. destruct (find _ _) as [[r' tr]|] eqn:EF; [|discriminate]. cbn in Er. injection Er as ->. apply find_some in EF. destruct EF as [Hin ED]. apply dep_eqb_ok in ED.
      apply enum_from_In in Hin. destruct Hin as [_ Hin]. rewrite Nat.sub_0_r in Hin. eauto. }
    split; [apply registered_of; apply HO|]. split; [exact E|]. intros nb Hn.
    destruct (sample_total U P L leL zero ninf m lx nouns HT HA BO NB nb tuples Hn HP) as (r' & H' & R' & d' & s' & Er' & _ & E' & Es).
    rewrite Er in Er'. injection Er' as <-. rewrite E in E'. injection E' as _ _ _ <-. exact Es.
  - intros tuples HR nb Hn. unfold sample. erewrite sample_ok; [|exact Hn|rewrite labelled_named; unfold make_labelled; rewrite (find_unrooted _ HR); reflexivity].
    cbn [l_tokens l_tags l_tree]. reflexivity.
  - intros tuples l e El E nb Hn. unfold sample. erewrite sample_ok; [|exact Hn|exact El]. fold logic. rewrite E. reflexivity.
  - intros tuples e E nb. unfold sample, test_sample. rewrite E. reflexivity.
Qed.

(** The tuples do not depend on the order in which the arcs were given to the tree. *)
Theorem C81_order : forall (U : udb) (P L : Type) (leP : P -> P -> bool) (leL : L -> L -> bool) zero ninf float_of_str (log : P -> res L) min_counts files m lx nouns,
  total_order leL -> antisym leL -> (forall x, leL ninf x = true) -> (forall p l, log p = Ok l -> leL l ninf = false) ->
  load_lm U P L leP float_of_str log min_counts files = Ok m -> (forall x, lm_contains P L m x = true -> nonblank U x) ->
  forall tuples h root tr t, labelled_parse tuples -> single_dependents tuples ->
  NoDup h -> (forall a, In a h <-> labelled_arc tuples a) -> nth_error tuples root = Some tr -> tt_dep tr = ROOT -> registered root h = Ok t ->
  exists H R d s s', logic_process U P L leL zero ninf (lm_tokenize U) m lx nouns (map tt_token tuples) (map tt_tag tuples) (Some t) true = Ok (H, R, d, s) /\
    (forall nb_processes, (1 <= nb_processes)%Z -> test_sample U P L leL zero ninf m lx nouns nb_processes (map named tuples) = Ok s') /\
    forall x, In x s <-> In x s'.
Proof.
  intros U P L leP leL zero ninf fl lg mc files m lx nouns HT HA H1 H2 H3 NB tuples h root tr t HP HS Hnd Hh Er Ed Et.
  pose proof (loaded_best _ _ _ _ _ zero _ _ _ _ _ _ HT H1 H2 H3) as BO.
  destruct (sample_total U P L leL zero ninf m lx nouns HT HA BO NB 1 tuples ltac:(lia) HP) as (r & H' & R' & d' & s' & Er' & HO & E' & _).
  assert (r = root).
  { unfold gold_root in Er'. destruct (find _ _) as [[r' tr']|] eqn:EF; [|discriminate]. cbn in Er'. injection Er' as ->. apply find_some in EF. destruct EF as [Hin ED]. apply dep_eqb_ok in ED.
    apply enum_from_In in Hin. destruct Hin as [_ Hin]. rewrite Nat.sub_0_r in Hin. destruct (lp_root _ HP) as (r0 & t0 & _ & _ & Hu). rewrite (Hu _ _ Hin ED), (Hu _ _ Er Ed). reflexivity. }
  subst r. assert (S : same_set h (gold tuples)) by (intros a; rewrite Hh, gold_In; reflexivity).
  assert (HO' : parse_ok (length tuples) root h) by (apply (parse_ok_set _ _ (gold tuples)); [apply same_set_sym; exact S|exact HO]).
  destruct (logic_total U P L leL zero ninf m BO NB lx HT HA (lm_tokenize U) [[]] eq_refl nouns (map tt_token tuples) (map tt_tag tuples) (Some t) true) as ([[[H R] d] s] & E).
  { right. exists root, h, t. rewrite !map_length. auto. }
  destruct (sample_same U P L leL zero ninf m lx nouns HT HA BO NB 1 tuples h root (Some t) H R d s ltac:(lia) HP HS Hnd Hh Er') as (s2 & Es & Hs); [right; f_equal; apply registered_tree; exact Et|exact E|].
  exists H, R, d, s, s2. split; [exact E|]. split; [|exact Hs]. intros nb Hn.
  destruct (sample_same U P L leL zero ninf m lx nouns HT HA BO NB nb tuples h root (Some t) H R d s Hn HP HS Hnd Hh Er') as (s3 & Es3 & _); [right; f_equal; apply registered_tree; exact Et|exact E|].
  destruct (sample_total U P L leL zero ninf m lx nouns HT HA BO NB 1 tuples ltac:(lia) HP) as (ra & Ha & Ra & da & sa & Era & _ & Ea & Esa).
  destruct (sample_total U P L leL zero ninf m lx nouns HT HA BO NB nb tuples Hn HP) as (rb & Hb & Rb & db & sb & Erb & _ & Eb & Esb).
  rewrite Era in Erb. injection Erb as <-. rewrite Ea in Eb. injection Eb as _ _ _ <-. rewrite Esa in Es. injection Es as <-. exact Esb.
Qed.

(** Models that have learned the data (C77): the pipeline extracts from the sentences of the data the tuples of the labelled sentences. *)
Theorem C81_learned : forall V v0 U cs ws (M : models V) shuffle_tags shuffle_deps shuffle_trans data tags_data deps_data trans_data
    (P L : Type) (leP : P -> P -> bool) (leL : L -> L -> bool) zero ninf float_of_str (log : P -> res L) min_counts files m lx nouns sentencize,
  total_order leL -> antisym leL -> (forall x, leL ninf x = true) -> (forall p l, log p = Ok l -> leL l ninf = false) ->
  load_lm U P L leP float_of_str log min_counts files = Ok m -> (forall x, lm_contains P L m x = true -> nonblank U x) ->
  ws_ok V ws -> models_ok V M ->
  (forall l, Permutation l (shuffle_tags l)) -> (forall l, Permutation l (shuffle_deps l)) -> (forall l, Permutation l (shuffle_trans l)) ->
  (forall tuples, In tuples data -> projective_tree tuples /\ length tuples <= 50) ->
  extract_ptags_training_data V v0 U cs ws shuffle_tags (map (map named) data) = Ok tags_data -> learned_tags V M tags_data ->
  extract_pdeps_training_data V v0 U cs ws shuffle_deps (map (map named) data) = Ok deps_data -> learned_deps V M deps_data ->
  extract_trans_training_data V v0 U cs ws shuffle_trans (map (map named) data) = Ok trans_data -> learned_trans V M trans_data ->
  forall text sents, sentencize text = Ok (map (map tt_token) sents) -> (Z.of_nat (length sents) <= 2 ^ 53)%Z ->
  (forall tuples, In tuples sents -> In tuples data /\ single_dependents tuples) ->
  exists doc, (forall nb_cores batch_size, (1 <= nb_cores)%Z -> 1 <= batch_size ->
      forall out, pipeline_returns V v0 U M cs ws P L leL zero ninf m lx nouns sentencize nb_cores (Z.of_nat batch_size) [text] true out <-> out = [doc]) /\
    Forall2 (fun tuples s => exists s', (forall nb_processes, (1 <= nb_processes)%Z ->
      test_sample U P L leL zero ninf m lx nouns nb_processes (map named tuples) = Ok s') /\ forall x, In x s <-> In x s') sents doc.
Proof.
  intros V v0 U cs ws M st sd sr data dt dd dr P L leP leL zero ninf fl lg mc files m lx nouns sz HT HA H1 H2 H3 NB HW HM Pt Pd Pr HD Et Lt Ed Ld Er Lr text sents Esz HL Hs.
  pose proof (loaded_best _ _ _ _ _ zero _ _ _ _ _ _ HT H1 H2 H3) as BO.
  assert (ES : split_tokens (map (map tt_token) sents) = map (map tt_token) sents).
  { assert (Hl : Forall (fun x => length x <= 50) (map (map tt_token) sents)).
    { apply Forall_forall. intros x Hx. apply in_map_iff in Hx. destruct Hx as (tu & <- & Hx). rewrite map_length. apply (HD tu). apply (Hs tu Hx). }
    destruct (split_tokens_ok (map (map tt_token) sents)) as (pieces & HF & ->). clear - HF Hl. induction HF as [|x p l ps Hr HF IH]; [reflexivity|].
    inversion Hl; subst. cbn [concat]. rewrite IH by assumption. destruct Hr; [reflexivity|lia]. }
  destruct (C12_documents V v0 U M cs ws P L leP leL zero ninf fl lg mc files m lx nouns sz HT HA H1 H2 H3 NB HM HW [text] [map (map tt_token) sents] true) as (docs & Ld' & HR & Hdoc).
  { constructor; [exact Esz|constructor]. } { cbn. lia. } { cbn [map concat]. rewrite app_nil_r, ES, map_length. exact HL. }
  destruct docs as [|doc [|? ?]]; try discriminate. exists doc. split; [intros nb bs; apply HR|].
  destruct (Hdoc 0 text doc eq_refl eq_refl) as [(ss & Ess & HF) _]. rewrite Esz in Ess. injection Ess as <-. rewrite ES in HF. clear - HF Hs HD HT HA BO NB HW HM Pt Pd Pr Et Lt Ed Ld Er Lr.
  revert doc HF. induction sents as [|tu sents IH]; intros doc HF; cbn [map] in HF; inversion HF as [|? s ? ? (tg & tree & H & R & d & Hp & El) HF']; subst; constructor.
  - destruct (Hs tu (or_introl eq_refl)) as [Hin HS]. destruct (HD _ Hin) as [HP Hl].
    assert (HLA : exists tree, parsed V v0 U M cs ws (map tt_token tu) (map tt_tag tu) tree /\ labelled_tree tu tree /\ exists h, NoDup h /\ (forall a, In a h <-> In a (gold tu)) /\ tree = match h with [] => None | _ => option_map (fun r => tree_of r h) (gold_root tu) end) by (eapply learned_arcs with (data := data); eauto).
    destruct HLA as (tree' & Hp' & _ & h & Hnd & Hh & Etr).
    destruct (parsed_fun V v0 U M cs ws _ _ _ _ _ Hp Hp') as [-> ->].
    pose proof (projective_parse _ HP) as HLP.
    destruct (labelled_ok tu HLP) as (r & Ert & _ & _). rewrite Ert in Etr. cbn [option_map] in Etr.
    assert (Hh' : forall a, In a h <-> labelled_arc tu a) by (intros a; rewrite Hh; apply gold_In).
    assert (K : forall nb, (1 <= nb)%Z -> exists s', test_sample U P L leL zero ninf m lx nouns nb (map named tu) = Ok s' /\ forall x, In x s <-> In x s').
    { intros nb Hn. apply (sample_same U P L leL zero ninf m lx nouns HT HA BO NB nb tu h r tree' H R d s Hn HLP HS Hnd Hh' Ert); [left; exact Etr|exact El]. }
    destruct (K 1%Z ltac:(lia)) as (s' & Es & Hx). exists s'. split; [|exact Hx]. intros nb Hn.
    destruct (sample_total U P L leL zero ninf m lx nouns HT HA BO NB 1 tu ltac:(lia) HLP) as (ra & Ha & Ra & da & sa & Era & _ & Ea & Esa).
    destruct (sample_total U P L leL zero ninf m lx nouns HT HA BO NB nb tu Hn HLP) as (rb & Hb & Rb & db & sb & Erb & _ & Eb & Esb).
    rewrite Era in Erb. injection Erb as <-. rewrite Ea in Eb. injection Eb as _ _ _ <-. rewrite Esa in Es. injection Es as <-. exact Esb.
  - apply IH; [intros tuples Ht; apply Hs; right; exact Ht|exact HF'].
Qed.

(** * Witnesses *)
Definition tk (w : string) (g : tag) (d : dep) (p : Z) : token_tuple := {| tt_token := lit w; tt_tag := g; tt_dep := d; tt_parent := p |}.
(** a verb with one subject and one object, a single root, and a verb with two subjects *)
Definition s_one : list token_tuple := [tk "cats" NOUN SUBJ 1; tk "make" VERB ROOT (-1); tk "the" DET ART 3; tk "theatre" NOUN OBJ 1].
Definition s_two : list token_tuple := [tk "cats" NOUN SUBJ 2; tk "mice" NOUN SUBJ 2; tk "make" VERB ROOT (-1); tk "clever" ADJ PROP 2].
Definition s_data : list (list token_tuple) := [s_one; [tk "Go" VERB ROOT (-1)]; s_two].
(** models that answer what is in the tables, and zeros elsewhere *)
Definition s_tags := match extract_ptags_training_data unit tt ascii_udb [] [] (@rev _) (map (map named) s_data) with Ok (Some (c, w, y)) => combine (combine c w) y | _ => [] end.
Definition s_deps := match extract_pdeps_training_data unit tt ascii_udb [] [] (@rev _) (map (map named) s_data) with
  | Ok (Some (t, c, w, y)) => combine (combine (combine t c) w) y | _ => [] end.
Definition s_trans := match extract_trans_training_data unit tt ascii_udb [] [] (fun l => l) (map (map named) s_data) with
  | Ok (Some (t, d, c, w, m1, m2, y)) => combine (combine (combine (combine (combine (combine t d) c) w) m1) m2) y | _ => [] end.
Definition s_models : models unit := {|
  ptags_model := fun c _ => match find (fun '(c', _, _) => w_mat_eqb c c') s_tags with Some (_, _, y) => y | None => repeat 0 52 end;
  pdeps_model := fun t c _ => match find (fun '(t', c', _, _) => w_nat_eqb t t' && w_mat_eqb c c') s_deps with Some (_, _, _, y) => y | None => repeat 0 52 end;
  trans_model := fun t d c _ m1 m2 => match find (fun '(t', d', c', _, m1', m2', _) => w_nat_eqb t t' && w_nat_eqb d d' && w_mat_eqb c c' && w_bool_eqb m1 m1' && w_bool_eqb m2 m2') s_trans with
    Some (_, _, _, _, _, _, y) => y | None => 3 end |}.
Lemma s_models_ok : models_ok unit s_models.
Proof.
  constructor; cbn [ptags_model pdeps_model trans_model s_models].
  - intros c w. destruct (find _ s_tags) as [[[x u] y]|] eqn:E; [|apply w_codes_ok; reflexivity]. apply find_some in E. destruct E as [Hin _]. apply w_codes_ok.
    assert (K : forallb (fun '(_, _, y) => (length y =? 52) && forallb (fun c => c <? 17) y) s_tags = true) by (vm_compute; reflexivity). rewrite forallb_forall in K. exact (K _ Hin).
  - intros t c w. destruct (find _ s_deps) as [[[[x u] v] y]|] eqn:E; [|apply w_codes_ok; reflexivity]. apply find_some in E. destruct E as [Hin _]. apply w_codes_ok.
    assert (K : forallb (fun '(_, _, _, y) => (length y =? 52) && forallb (fun c => c <? 25) y) s_deps = true) by (vm_compute; reflexivity). rewrite forallb_forall in K. exact (K _ Hin).
  - intros t d c w m1 m2. destruct (find _ s_trans) as [[[[[[[x1 x2] x3] x4] x5] x6] y]|] eqn:E; [|lia]. apply find_some in E. destruct E as [Hin _].
    assert (K : forallb (fun '(_, _, _, _, _, _, y) => y <? 4) s_trans = true) by (vm_compute; reflexivity). rewrite forallb_forall in K. apply Nat.ltb_lt. exact (K _ Hin).
Qed.
(** the arcs of the two sentences *)
Lemma s_one_arcs a : labelled_arc s_one a -> In a [(SUBJ, 1, 0); (ART, 3, 2); (OBJ, 1, 3)].
Proof. intros H. apply gold_In in H. exact H. Qed.
Lemma s_two_arcs a : labelled_arc s_two a -> In a [(SUBJ, 2, 0); (SUBJ, 2, 1); (PROP, 2, 3)].
Proof. intros H. apply gold_In in H. exact H. Qed.
Ltac two_step arcs H := inversion H as [? ? ? D|? ? ? ? D D2]; subst; apply arcs in D; cbn in D.
Lemma s_one_tree : projective_tree s_one.
Proof.
  constructor.
  - exists 1. eexists. split; [reflexivity|]. split; [reflexivity|]. intros [|[|[|[|[|r]]]]] t' E K; try discriminate; try reflexivity; injection E as <-; discriminate.
  - intros [|[|[|[|[|i]]]]] t E K1 K2; try discriminate; injection E as <-; [exists 1|contradiction|exists 3|exists 1]; (split; [reflexivity|]); eexists; (split; [reflexivity|discriminate]).
  - assert (K : forall x y, dominates s_one x y -> (x = 1 /\ y <> 1) \/ (x = 3 /\ y = 2)).
    { intros x y H. induction H as [l p c H|l p q c H H' IH]; apply s_one_arcs in H; cbn in H.
      - destruct H as [H|[H|[H|[]]]]; injection H as <- <- <-; lia.
      - destruct H as [H|[H|[H|[]]]]; injection H as <- <- <-; lia. }
    intros i H. apply K in H. lia.
  - intros l p c k H (t & E & _) Hk. apply s_one_arcs in H. cbn in H. destruct H as [H|[H|[H|[]]]]; injection H as <- <- <-; cbn in Hk; try lia.
    assert (k = 2) as -> by lia. eapply dom_more with (m := 3) (l := OBJ); [apply gold_In; cbn; tauto|]. eapply dom_one with (l := ART). apply gold_In. cbn. tauto.
Qed.
Lemma s_two_tree : projective_tree s_two.
Proof.
  constructor.
  - exists 2. eexists. split; [reflexivity|]. split; [reflexivity|]. intros [|[|[|[|[|r]]]]] t' E K; try discriminate; try reflexivity; injection E as <-; discriminate.
  - intros [|[|[|[|[|i]]]]] t E K1 K2; try discriminate; injection E as <-; [exists 2|exists 2|contradiction|exists 2]; (split; [reflexivity|]); eexists; (split; [reflexivity|discriminate]).
  - assert (K : forall x y, dominates s_two x y -> x = 2 /\ y <> 2).
    { intros x y H. induction H as [l p c H|l p q c H H' IH]; apply s_two_arcs in H; cbn in H; destruct H as [H|[H|[H|[]]]]; injection H as <- <- <-; lia. }
    intros i H. apply K in H. lia.
  - intros l p c k H (t & E & _) Hk. apply s_two_arcs in H. cbn in H. destruct H as [H|[H|[H|[]]]]; injection H as <- <- <-; cbn in Hk; try lia.
    assert (k = 1) as -> by lia. eapply dom_one with (l := SUBJ). apply gold_In. cbn. tauto.
Qed.
Lemma s_go_tree : projective_tree [tk "Go" VERB ROOT (-1)].
Proof. exact w_go. Qed.
Lemma s_one_single : single_dependents s_one.
Proof.
  intros l p c c' Hl H1 H2. apply s_one_arcs in H1, H2. cbn in *.
  destruct H1 as [H1|[H1|[H1|[]]]]; injection H1 as <- <- <-; destruct H2 as [H2|[H2|[H2|[]]]]; congruence.
Qed.
Lemma s_data_trees tuples : In tuples s_data -> projective_tree tuples /\ length tuples <= 50.
Proof. intros [<-|[<-|[<-|[]]]]; (split; [|cbn; lia]); [exact s_one_tree|exact s_go_tree|exact s_two_tree]. Qed.
Lemma s_learned :
  (exists d, extract_ptags_training_data unit tt ascii_udb [] [] (@rev _) (map (map named) s_data) = Ok d /\ learned_tags unit s_models d) /\
  (exists d, extract_pdeps_training_data unit tt ascii_udb [] [] (@rev _) (map (map named) s_data) = Ok d /\ learned_deps unit s_models d) /\
  (exists d, extract_trans_training_data unit tt ascii_udb [] [] (fun l => l) (map (map named) s_data) = Ok d /\ learned_trans unit s_models d).
Proof.
  split; [|split].
  - eexists. split; [vm_compute; reflexivity|]. intros c w y E i c' w' y' E1 E2 E3. injection E as <- <- <-.
    destruct i as [|[|[|[|i]]]]; try discriminate; injection E1 as <-; injection E2 as <-; injection E3 as <-; vm_compute; reflexivity.
  - eexists. split; [vm_compute; reflexivity|]. intros t c w y E i t' c' w' y' E0 E1 E2 E3. injection E as <- <- <- <-.
    destruct i as [|[|[|[|i]]]]; try discriminate; injection E0 as <-; injection E1 as <-; injection E2 as <-; injection E3 as <-; vm_compute; reflexivity.
  - eexists. split; [vm_compute; reflexivity|]. intros t d c w m1 m2 y E i t' d' c' w' m1' m2' y' E0 E1 E2 E3 E4 E5 E6. injection E as <- <- <- <- <- <- <-.
    do 12 (destruct i as [|i]; [try discriminate; injection E0 as <-; injection E1 as <-; injection E2 as <-; injection E3 as <-; injection E4 as <-; injection E5 as <-; injection E6 as <-; vm_compute; reflexivity|]).
    destruct i; discriminate.
Qed.
Definition s_sample := test_sample ascii_udb Z (option Z) w_leL 0%Z None w_lm w_lx [lit "cat"].
Definition s_call := pipeline_call unit tt ascii_udb s_models [] [] Z (option Z) w_leL 0%Z None w_lm w_lx [lit "cat"] p_sentencize.
Definition s_text : str := lit "cats make the theatre" ++ [10%N] ++ lit "Go".
Definition words_of (t : stuple) : list str := map a_word t.
Example C81_witness : labelled_parse s_one /\ single_dependents s_one /\ models_ok unit s_models /\
  p_sentencize s_text = Ok (map (map tt_token) [s_one; [tk "Go" VERB ROOT (-1)]]) /\
  (exists s, s_sample 3 (map named s_one) = Ok s /\ map words_of s = [[lit "cat"; lit "make"; lit "theatre"]; [lit "theatre"; lit "be"; lit "maked"]] /\
     s_call 2 3 [s_text] true = Ok [[s; []]]) /\
  s_sample 3 (map named [tk "Go" VERB ROOT (-1)]) = Ok [] /\ s_sample 3 [] = Ok [] /\
  s_sample 3 (map named [tk "a" NOUN SUBJ 0; tk "b" NOUN ROOT (-1)]) = Err AssertionError.
Proof.
  split; [apply projective_parse; exact s_one_tree|]. split; [exact s_one_single|]. split; [exact s_models_ok|]. split; [vm_compute; reflexivity|].
  split; [eexists; split; [vm_compute; reflexivity|]; split; vm_compute; reflexivity|]. repeat split; vm_compute; reflexivity.
Qed.
(** Without the condition on dependents the tuples can differ: the parser gives a verb its nearest subject first, the labelled sentence
    its leftmost one. The models have learned the sentence. *)
Theorem C81_two_subjects : In s_two s_data /\ projective_tree s_two /\ p_sentencize (lit "cats mice make clever") = Ok [map tt_token s_two] /\
  exists s s', s_sample 3 (map named s_two) = Ok s /\ s_call 2 3 [lit "cats mice make clever"] true = Ok [[s']] /\
    map words_of s = [[lit "cat"; lit "make"; lit "clever"]] /\ map words_of s' = [[lit "mouse"; lit "make"; lit "clever"]].
Proof.
  split; [right; right; left; reflexivity|]. split; [exact s_two_tree|]. split; [vm_compute; reflexivity|].
  do 2 eexists. split; [vm_compute; reflexivity|]. split; [vm_compute; reflexivity|]. split; vm_compute; reflexivity.
Qed.

Print Assumptions C81_sample.
Print Assumptions C81_order.
Print Assumptions C81_learned.
Print Assumptions C81_two_subjects.
