(** C52-C57: smoothing. The specification is in SLangModel.v: the statistics of a corpus and the Kneser-Ney values. *)
From Coq Require Import Ascii String.
From Coq Require Import List NArith ZArith QArith Qminmax Arith Bool Lia.
From Verif Require Import PyBase Regex MUtils SUtils LBase MNgram SLangModel LNgram MSmooth MBuilder LSmooth LCorpus LMkn LMkn2 LKn LBuilder LUdb.
Import ListNotations.
Local Open Scope nat_scope.

(** [store] is what the builder has counted from [texts] with [nb] processes for the orders up to [max_order]; [sentences]
    are the sentences of the texts. The sizes are those for which the cuts of np.linspace are exact. *)
Record built (U : udb) (sentencize : str -> res (list (list str))) (nb max_order : nat) (texts : list str) (sentences : list (list str)) (s : store) : Prop := {
  b_udb : udb_ok U;
  b_nb : 1 <= nb /\ (Z.of_nat nb <= 2 ^ 53)%Z;
  b_texts : exists sentenced, mapM sentencize texts = Ok sentenced /\ sentences = concat sentenced;
  b_store : build_store U sentencize nb max_order texts = Ok s;
  b_size : (Z.of_nat (length (store_ngrams s)) <= 2 ^ 53)%Z
}.
Lemma built_corpus U sz nb M texts sentences s : built U sz nb M texts sentences s -> exists tts, sentences = concat tts /\ store_ngrams s = corpus U M tts.
Proof.
  intros [OK [Hn _] (tts & H1 & H2) H3 _]. exists tts. split; [exact H2|]. rewrite build_store_spec in H3 by assumption. rewrite H1 in H3. cbn [rbind] in H3. injection H3 as <-. reflexivity.
Qed.

(** ** C52 *)
(** [ngrams] may be any list of ngrams with positive counts. If each order has an ngram, the probabilities are the
    counts divided by the total of the order. *)
Theorem C52_mle_probabilities : forall U ngrams last_order nb,
  1 <= nb -> (Z.of_nat nb <= 2 ^ 53)%Z -> (Z.of_nat (length ngrams) <= 2 ^ 53)%Z ->
  Forall (fun n => 1 <= ng_order U n <= last_order /\ 1 <= ng_count n) ngrams ->
  (forall o, 1 <= o <= last_order -> exists n, In n ngrams /\ ng_order U n = o) ->
  exists d, mle_smoother U ngrams last_order (Z.of_nat nb) = Ok d /\
  forall o, 1 <= o <= last_order ->
    let those := filter (fun n => ng_order U n =? o) ngrams in
    let total := list_sum (map ng_count those) in
    let proba n := (Qnat (ng_count n) / Qnat total)%Q in
    dget Nat.eqb o d = Some (map (fun n => {| ng_text := ng_text n; ng_count := ng_count n; ng_proba := Some (proba n) |}) those) /\
    Forall (fun n => 0 < proba n /\ proba n <= 1)%Q those /\ (qsum_list (map proba those) == 1)%Q.
Proof.
  intros U ngrams last nb H1 H2 H3 HF Hall.
  assert (Hne : forall o, 1 <= o <= last -> of_order U o ngrams <> []).
  { intros o Ho E. destruct (Hall o Ho) as (n & Hn & Hno). assert (In n (of_order U o ngrams)); [|rewrite E in *; contradiction]. apply filter_In. split; [exact Hn|]. apply Nat.eqb_eq. exact Hno. }
  destruct (mle_ok U nb last ngrams H1 H2 H3 HF Hne) as (d & E & Hd). exists d. split; [exact E|]. intros o Ho those total0 proba. specialize (Hd o Ho). split; [exact Hd|].
  assert (Hp : 0 < total U o ngrams). { apply total_pos; [eapply Forall_impl; [|exact HF]; cbn; tauto|apply Hne; exact Ho]. }
  assert (Hq : (0 < Qn (total U o ngrams))%Q) by (apply Qn_pos; exact Hp). change (total U o ngrams) with total0 in Hq. split.
  - apply Forall_forall. intros n Hn. unfold proba. change Qnat with Qn. assert (Hc : 1 <= ng_count n <= total0).
    { unfold those in Hn. split; [rewrite Forall_forall in HF; apply filter_In in Hn; apply HF; tauto|]. unfold total0. fold those in Hn. clear - Hn. induction those as [|x l IH]; [destruct Hn|].
      cbn [map]. change (list_sum (ng_count x :: map ng_count l)) with (ng_count x + list_sum (map ng_count l)). destruct Hn as [->|Hn]; [lia|]. specialize (IH Hn). lia. }
    split; [apply Qlt_shift_div_l|apply Qle_shift_div_r]; try exact Hq; rewrite ?Qmult_0_l, ?Qmult_1_l; [apply Qn_pos; lia|apply Qn_le; lia].
  - unfold proba. rewrite <- (map_map ng_count (fun c => Qnat c / Qnat total0)%Q). change Qnat with Qn. 
    assert (Hnz : ~ (Qn total0 == 0)%Q) by (intros F; rewrite F in Hq; apply (Qlt_irrefl 0); exact Hq). rewrite qsum_scale by exact Hnz. fold total0. field. exact Hnz.
Qed.
Definition w_texts : list str := [lit "the cat. the hat"; lit "the cat"; lit "a hat"].
Definition w_split (t : str) : res (list (list str)) := Ok (map (split_ws ascii_space) (split_chr 46%N t)).
Example C52_witness :
  (let! s := build_store ascii_udb w_split 2 2 w_texts in
   Ok (forallb (fun n => (1 <=? ng_order ascii_udb n) && (ng_order ascii_udb n <=? 2) && (1 <=? ng_count n)) (store_ngrams s),
       forallb (fun o => existsb (fun n => ng_order ascii_udb n =? o) (store_ngrams s)) [1; 2])) = Ok (true, true).
Proof. vm_compute. reflexivity. Qed.

(** ** C53 *)
(** The property is false: the ngrams of a text of one word, with a maximal order of 2. *)
Theorem C53_mle_total_refuted : exists sentencize texts store,
  build_store ascii_udb sentencize 1 2 texts = Ok store /\ mle_smoother ascii_udb (store_ngrams store) 2 1 = Err KeyError.
Proof. exists w_split, [lit "hello"]. eexists. split; [vm_compute; reflexivity|]. vm_compute. reflexivity. Qed.
(** It raises nothing but KeyError, and exactly when some order has no ngram. *)
Theorem C53_mle_total_partial : forall U ngrams last_order nb,
  1 <= nb -> (Z.of_nat nb <= 2 ^ 53)%Z -> (Z.of_nat (length ngrams) <= 2 ^ 53)%Z ->
  Forall (fun n => 1 <= ng_order U n <= last_order /\ 1 <= ng_count n) ngrams ->
  (forall o, 1 <= o <= last_order -> exists n, In n ngrams /\ ng_order U n = o) /\ (exists d, mle_smoother U ngrams last_order (Z.of_nat nb) = Ok d) \/
  (exists o, 1 <= o <= last_order /\ forall n, In n ngrams -> ng_order U n <> o) /\ mle_smoother U ngrams last_order (Z.of_nat nb) = Err KeyError.
Proof.
  intros U ngrams last nb H1 H2 H3 HF.
  assert (Hdec : (forall o, 1 <= o <= last -> of_order U o ngrams <> []) \/ exists o, 1 <= o <= last /\ of_order U o ngrams = []).
  { clear HF. induction last as [|k IH]; [left; lia|]. destruct IH as [IH|(o & Ho & E)]; [|right; exists o; split; [lia|exact E]].
    destruct (of_order U (S k) ngrams) as [|x l] eqn:E; [right; exists (S k); split; [lia|exact E]|]. left. intros o Ho. destruct (Nat.eq_dec o (S k)) as [->|]; [congruence|apply IH; lia]. }
  destruct Hdec as [Hall|(o & Ho & Hno)]; [left|right].
  - split; [|destruct (mle_ok U nb last ngrams H1 H2 H3 HF Hall) as (d & E & _); eauto]. intros o Ho. specialize (Hall o Ho). destruct (of_order U o ngrams) as [|n l] eqn:E; [congruence|].
    exists n. assert (Hn : In n (of_order U o ngrams)) by (rewrite E; left; reflexivity). apply filter_In in Hn. destruct Hn as [Hn Hno]. split; [exact Hn|apply Nat.eqb_eq; exact Hno].
  - split; [|apply (mle_missing U nb last ngrams o); assumption]. exists o. split; [exact Ho|]. intros n Hn E.
    assert (In n (of_order U o ngrams)); [|rewrite Hno in *; contradiction]. apply filter_In. split; [exact Hn|apply Nat.eqb_eq; exact E].
Qed.

(** ** C54 *)
Theorem C54_mkn_defined : forall U sentencize nb max_order texts sentences store, 2 <= max_order -> built U sentencize nb max_order texts sentences store ->
  let result := mkn_smoother U (store_ngrams store) max_order (Z.of_nat nb) in
  (exists order count, 2 <= order <= max_order /\ 1 <= count <= 4 /\ with_count U sentences order count = 0) /\ result = Err MKNNotEnoughDataError \/
  (forall order count, 2 <= order <= max_order -> 1 <= count <= 4 -> with_count U sentences order count <> 0) /\
  exists d, result = Ok d /\ forall order, 1 <= order <= max_order -> exists ngrams, dget Nat.eqb order d = Some ngrams /\
    map (fun n => (ng_text n, ng_count n)) ngrams = map (fun n => (ng_text n, ng_count n)) (filter (fun n => ng_order U n =? order) (store_ngrams store)) /\
    Forall (fun n => ng_proba n <> None) ngrams.
Proof.
  intros U sz nb M texts sentences s HM HB result. destruct (built_corpus _ _ _ _ _ _ _ HB) as (tts & -> & Hc). destruct HB as [OK [Hn1 Hn2] _ _ Hsz].
  unfold result. rewrite Hc in *. change (concat tts) with (sents tts). destruct (forallb (rich U tts) (seq 2 (M - 1))) eqn:Hr.
  - right. split.
    + intros o r Ho Hr' E. assert (F : forallb (rich U tts) (seq 2 (M - 1)) = false) by (apply rich_false; eauto). congruence.
    + destruct (mkn_ok U OK M tts nb HM Hn1 Hn2 Hsz Hr) as (d & E & Hd). exists d. split; [exact E|]. intros o Ho. rewrite (Hd o Ho).
      assert (Hne : types U (sents tts) o <> []).
      { intros F. destruct (Nat.eq_dec o 1) as [->|].
        - assert (H2 : 1 <= length (types U (sents tts) 2)) by (apply rich_types; rewrite forallb_forall in Hr; apply Hr, in_seq; lia).
          destruct (types U (sents tts) 2) as [|g l] eqn:E2; [cbn in H2; lia|]. assert (In (tl g) (types U (sents tts) 1)); [|rewrite F in *; contradiction].
          apply types_tl; [lia|]. rewrite E2. left. reflexivity.
        - assert (H2 : 1 <= length (types U (sents tts) o)) by (apply rich_types; rewrite forallb_forall in Hr; apply Hr, in_seq; lia). rewrite F in H2. cbn in H2. lia. }
      exists (map (kn_entry U tts) (types U (sents tts) o)). split; [destruct (types U (sents tts) o); [congruence|reflexivity]|]. split.
      * change (filter (fun n => ng_order U n =? o) (corpus U M tts)) with (of_order U o (corpus U M tts)). rewrite (corpus_order U OK) by exact Ho. rewrite !map_map. reflexivity.
      * apply Forall_forall. intros n Hn. apply in_map_iff in Hn. destruct Hn as (g & <- & _). discriminate.
  - left. split; [apply rich_false; exact Hr|]. apply mkn_err; assumption.
Qed.

(** ** C55 *)
Theorem C55_mkn_unigrams : forall U sentencize nb max_order texts sentences store d, 2 <= max_order -> built U sentencize nb max_order texts sentences store ->
  mkn_smoother U (store_ngrams store) max_order (Z.of_nat nb) = Ok d ->
  exists ngrams probas, dget Nat.eqb 1 d = Some ngrams /\ map ng_proba ngrams = map Some probas /\
    map ng_text ngrams = map ng_text (filter (fun n => ng_order U n =? 1) (store_ngrams store)) /\
    Forall (fun p => 0 <= p)%Q probas /\ (qsum_list probas == 1)%Q.
Proof.
  intros U sz nb M texts sentences s d HM HB E. destruct (built_corpus _ _ _ _ _ _ _ HB) as (tts & -> & Hc). destruct HB as [OK [Hn1 Hn2] _ _ Hsz]. rewrite Hc in *.
  destruct (forallb (rich U tts) (seq 2 (M - 1))) eqn:Hr; [|rewrite mkn_err in E by assumption; discriminate].
  destruct (mkn_ok U OK M tts nb HM Hn1 Hn2 Hsz Hr) as (d' & E' & Hd). rewrite E in E'. injection E' as <-. specialize (Hd 1 ltac:(lia)).
  assert (H2 : 1 <= length (types U (sents tts) 2)) by (apply rich_types; rewrite forallb_forall in Hr; apply Hr, in_seq; lia).
  assert (Hne : types U (sents tts) 1 <> []).
  { intros F. destruct (types U (sents tts) 2) as [|g l] eqn:E2; [cbn in H2; lia|]. assert (In (tl g) (types U (sents tts) 1)); [|rewrite F in *; contradiction]. apply types_tl; [lia|]. rewrite E2. left. reflexivity. }
  exists (map (kn_entry U tts) (types U (sents tts) 1)), (map (kneser_ney U (sents tts)) (types U (sents tts) 1)). repeat split.
  - rewrite Hd. destruct (types U (sents tts) 1); [congruence|reflexivity].
  - rewrite !map_map. reflexivity.
  - change (filter (fun n => ng_order U n =? 1) (corpus U M tts)) with (of_order U 1 (corpus U M tts)). rewrite (corpus_order U OK) by lia. rewrite !map_map. reflexivity.
  - apply Forall_forall. intros p Hp. apply in_map_iff in Hp. destruct Hp as (g & <- & Hg). pose proof (types_length U tts 1 g ltac:(lia) Hg) as Hl. destruct g as [|w [|]]; cbn in Hl; try lia.
    apply (uni_bounds U tts [w]).
  - apply uni_sum. exact H2.
Qed.

(** ** C56 *)
Theorem C56_mkn_values : forall U sentencize nb max_order texts sentences store d, 2 <= max_order -> built U sentencize nb max_order texts sentences store ->
  mkn_smoother U (store_ngrams store) max_order (Z.of_nat nb) = Ok d ->
  forall order, 1 <= order <= max_order ->
  dget Nat.eqb order d = Some (map (fun g => {| ng_text := spaced g; ng_count := cnt U sentences g; ng_proba := Some (kneser_ney U sentences g) |}) (types U sentences order)).
Proof.
  intros U sz nb M texts sentences s d HM HB E o Ho. pose proof HB as HB0. destruct (built_corpus _ _ _ _ _ _ _ HB) as (tts & -> & Hc). destruct HB as [OK [Hn1 Hn2] _ _ Hsz]. rewrite Hc in *.
  destruct (forallb (rich U tts) (seq 2 (M - 1))) eqn:Hr; [|rewrite mkn_err in E by assumption; discriminate].
  destruct (mkn_ok U OK M tts nb HM Hn1 Hn2 Hsz Hr) as (d' & E' & Hd). rewrite E in E'. injection E' as <-. specialize (Hd o Ho).
  destruct (C54_mkn_defined _ _ _ _ _ _ _ HM HB0) as [[_ F]|(_ & d' & F & H)]; rewrite Hc, E in F; [discriminate|]. injection F as <-.
  destruct (H o Ho) as (ns & Hns & _). rewrite Hns in Hd. change (concat tts) with (sents tts). rewrite Hns. destruct (types U (sents tts) o); [discriminate|exact Hd].
Qed.

(** ** C57 *)
(** The property is false: the corpus of tests/test_mkn_smoother.py. *)
Definition kn_corpus : list str := map lit [
  "this is a list containing the tallest buildings in blobby land ."; "the classic pyramid is the tallest building in blobby land .";
  "the classic hotel is the tallest tower in blobby land ."; "the classic tower is the lowest tower in blobby land .";
  "the pyramid is the tallest tower in blobby !"; "this is the classic pyramid ."; "this is a hotel list ."]%string.
Definition one_sentence (t : str) : res (list (list str)) := Ok [split_ws ascii_space t].
Theorem C57_mkn_probabilities_refuted : exists U sentencize nb max_order texts sentences store d ngrams n p,
  built U sentencize nb max_order texts sentences store /\ mkn_smoother U (store_ngrams store) max_order (Z.of_nat nb) = Ok d /\
  dget Nat.eqb 2 d = Some ngrams /\ In n ngrams /\ ng_proba n = Some p /\ (1 < p)%Q.
Proof.
  pose (s := match build_store ascii_udb one_sentence 1 3 kn_corpus with Ok s => s | Err _ => [] end).
  pose (d := match mkn_smoother ascii_udb (store_ngrams s) 3 1 with Ok d => d | Err _ => [] end).
  pose (ns := match dget Nat.eqb 2 d with Some l => l | None => [] end).
  pose (n := match find (fun n => str_eqb (ng_text n) (lit "in blobby")) ns with Some n => n | None => new_ngram [] end).
  pose (p := match ng_proba n with Some p => p | None => 0%Q end).
  exists ascii_udb, one_sentence, 1, 3, kn_corpus, (map (split_ws ascii_space) kn_corpus), s, d, ns, n, p.
  split; [|split; [|split; [|split; [|split]]]].
  - split; [exact ascii_udb_ok|split; [lia|vm_compute; discriminate]|eexists; split; [vm_compute; reflexivity|vm_compute; reflexivity]|vm_compute; reflexivity|vm_compute; discriminate].
  - vm_compute. reflexivity.
  - vm_compute. reflexivity.
  - assert (E : find (fun n => str_eqb (ng_text n) (lit "in blobby")) ns = Some n) by (vm_compute; reflexivity). apply find_some in E. apply E.
  - vm_compute. reflexivity.
  - vm_compute. reflexivity.
Qed.
(** What holds. A value is not negative if no discount is negative; it is at most 1 if moreover the value of the ngram
    without its first word is, as is the case of all bigrams. D1 is never negative. *)
Theorem C57_mkn_probabilities_partial : forall U sentencize nb max_order texts sentences store d, 2 <= max_order -> built U sentencize nb max_order texts sentences store ->
  mkn_smoother U (store_ngrams store) max_order (Z.of_nat nb) = Ok d ->
  forall order ngrams n p, 2 <= order <= max_order -> dget Nat.eqb order d = Some ngrams -> In n ngrams -> ng_proba n = Some p ->
  (forall k, 2 <= k <= order -> (0 <= D2 U sentences k)%Q /\ (0 <= D3 U sentences k)%Q) ->
  (0 <= p)%Q /\ (order = 2 -> (p <= 1)%Q) /\
  (lower_kn U sentences (order - 1) (tl (split_ws (u_space U) (ng_text n))) <= 1 -> p <= 1)%Q.
Proof.
  intros U sz nb M texts sentences s d HM HB E o ns n p Ho Hns Hn Hp HD. pose proof (C56_mkn_values _ _ _ _ _ _ _ _ HM HB E o ltac:(lia)) as Hd.
  destruct (C54_mkn_defined _ _ _ _ _ _ _ HM HB) as [[_ F]|(Hrich & _)]; [congruence|].
  destruct (built_corpus _ _ _ _ _ _ _ HB) as (tts & -> & Hc). change (concat tts) with (sents tts) in *. rewrite Hns in Hd. injection Hd as ->.
  apply in_map_iff in Hn. destruct Hn as (g & <- & Hg). cbn in Hp. injection Hp as <-. cbn [ng_text]. rewrite (split_spaced U (b_udb _ _ _ _ _ _ _ HB)) by (eapply types_tokenish; [apply (b_udb _ _ _ _ _ _ _ HB)|exact Hg]).
  pose proof (types_length U tts o g ltac:(lia) Hg) as Hl.
  assert (HT : forall k, 2 <= k <= o -> tame U tts k).
  { intros k Hk. split; [|apply HD; exact Hk]. intros r Hr. specialize (Hrich k r ltac:(lia) ltac:(lia)). change (concat tts) with (sents tts) in Hrich. lia. }
  assert (H0 : (0 <= lower_kn U (sents tts) (o - 1) (tl g))%Q).
  { apply lower_nonneg; [intros k Hk; apply HT; lia|]. destruct g; cbn in *; lia. }
  destruct (kn_bounds U tts o g ltac:(lia) Hg (HT o ltac:(lia)) H0) as [B1 B2]. split; [exact B1|]. split; [|exact B2].
  intros ->. apply B2. apply (uni_bounds U tts (tl g)). destruct g; cbn in *; lia.
Qed.
(** A corpus that is rich enough. The discounts of its trigrams, unlike those of its bigrams, are not negative. *)
Example C54_witness : exists s d, built ascii_udb one_sentence 2 3 kn_corpus (map (split_ws ascii_space) kn_corpus) s /\ mkn_smoother ascii_udb (store_ngrams s) 3 2 = Ok d.
Proof.
  eexists. eexists. split.
  - split; [exact ascii_udb_ok|split; [lia|vm_compute; discriminate]|eexists; split; [vm_compute; reflexivity|vm_compute; reflexivity]|vm_compute; reflexivity|vm_compute; discriminate].
  - vm_compute. reflexivity.
Qed.

(** The hypotheses of C57_mkn_probabilities_partial are met by a corpus of 19 texts: 8 bigrams that occur once, 2 twice,
    1 three times and 1 four times. *)
Definition tame_corpus : list str := map lit (["a b"; "c d"; "e f"; "g h"; "i j"; "k l"; "m n"; "o p"; "q r"; "q r"; "s t"; "s t"; "u v"; "u v"; "u v"; "x y"; "x y"; "x y"; "x y"])%string.
Example C57_witness : exists s d, built ascii_udb one_sentence 2 2 tame_corpus (map (split_ws ascii_space) tame_corpus) s /\ mkn_smoother ascii_udb (store_ngrams s) 2 2 = Ok d /\
  (0 <= D2 ascii_udb (map (split_ws ascii_space) tame_corpus) 2 /\ 0 <= D3 ascii_udb (map (split_ws ascii_space) tame_corpus) 2)%Q.
Proof.
  eexists. eexists. split; [|split].
  - split; [exact ascii_udb_ok|split; [lia|vm_compute; discriminate]|eexists; split; [vm_compute; reflexivity|vm_compute; reflexivity]|vm_compute; reflexivity|vm_compute; discriminate].
  - vm_compute. reflexivity.
  - split; vm_compute; discriminate.
Qed.

Print Assumptions C52_mle_probabilities.
Print Assumptions C53_mle_total_refuted.
Print Assumptions C53_mle_total_partial.
Print Assumptions C54_mkn_defined.
Print Assumptions C55_mkn_unigrams.
Print Assumptions C56_mkn_values.
Print Assumptions C57_mkn_probabilities_refuted.
Print Assumptions C57_mkn_probabilities_partial.
