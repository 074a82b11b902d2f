(** C85: the Kneser-Ney probabilities of what may follow a context. The specification is in SLangModel.v. *)
From Coq Require Import Ascii String.
From Coq Require Import List NArith ZArith QArith Qminmax Arith Bool Lia Lqa.
From Verif Require Import PyBase Regex MUtils SUtils LBase MNgram SLangModel LNgram MSmooth MBuilder LSmooth LCorpus LMkn LMkn2 LKn LBuilder LUdb LKnSum PSmooth.
Import ListNotations.
Local Open Scope nat_scope.

(** The words of an ngram, and the ngrams that consist of the words [h] and one word more. *)
Definition words_of (U : udb) (n : ngram) : list str := split_ws (u_space U) (ng_text n).
Definition after (U : udb) (h : list str) (ngrams : list ngram) : list ngram := filter (fun n => words_eqb (removelast (words_of U n)) h) ngrams.

Lemma after_types U tts o h : udb_ok U -> 1 <= o -> length h = o - 1 -> after U h (map (fun g => {| ng_text := spaced g; ng_count := cnt U (sents tts) g; ng_proba := Some (kneser_ney U (sents tts) g) |}) (types U (sents tts) o)) =
  map (fun g => {| ng_text := spaced g; ng_count := cnt U (sents tts) g; ng_proba := Some (kneser_ney U (sents tts) g) |}) (F U tts h).
Proof.
  intros OK Ho Hl. unfold after, F. replace (S (length h)) with o by lia. assert (H : forall g, In g (types U (sents tts) o) -> In g (types U (sents tts) o)) by auto. revert H.
  generalize (types U (sents tts) o) at 1 3 4. induction l as [|g l IH]; intros H; [reflexivity|]. cbn [map filter].
  assert (E : words_of U {| ng_text := spaced g; ng_count := cnt U (sents tts) g; ng_proba := Some (kneser_ney U (sents tts) g) |} = g).
  { unfold words_of. cbn [ng_text]. apply (split_spaced U OK). eapply types_tokenish; [exact OK|]. apply H. left. reflexivity. }
  rewrite E. destruct (words_eqb (removelast g) h); cbn [map]; rewrite IH by (intros; apply H; right; assumption); reflexivity.
Qed.

(** The probabilities stored for the ngrams that extend [h] sum to the share of the occurrences of [h] that are followed by a word,
    less the part of the discounted mass that lower orders give to words that do not follow [h] in the corpus. *)
Theorem C85_context_sum : forall U sentencize nb max_order texts sentences store d, 2 <= max_order -> built U sentencize nb max_order texts sentences store ->
  mkn_smoother U (store_ngrams store) max_order (Z.of_nat nb) = Ok d ->
  forall order ngrams h, 2 <= order <= max_order -> dget Nat.eqb order d = Some ngrams -> In h (types U sentences (order - 1)) ->
  exists probas, map ng_proba (after U h ngrams) = map Some probas /\
  (qsum_list probas ==
   Qnat (list_sum (map ng_count (after U h ngrams))) / Qnat (cnt U sentences h) -
   left_over U sentences h / Qnat (cnt U sentences h) * (1 - qsum_list (map (fun n => lower_kn U sentences (order - 1) (tl (words_of U n))) (after U h ngrams))))%Q.
Proof.
  intros U sz nb M texts sentences s d HM HB E o ns h Ho Hns Hh. pose proof (C56_mkn_values _ _ _ _ _ _ _ _ HM HB E o ltac:(lia)) as Hd.
  destruct (C54_mkn_defined _ _ _ _ _ _ _ HM HB) as [[_ F]|(Hrich & _)]; [congruence|].
  destruct (built_corpus _ _ _ _ _ _ _ HB) as (tts & -> & Hc). change (concat tts) with (sents tts) in *. rewrite Hns in Hd. injection Hd as ->.
  pose proof (b_udb _ _ _ _ _ _ _ HB) as OK. pose proof (types_length U tts (o - 1) h ltac:(lia) Hh) as Hl.
  rewrite (after_types U tts o h OK) by lia. exists (map (kneser_ney U (sents tts)) (F U tts h)). rewrite !map_map. cbn [ng_count ng_proba]. split; [reflexivity|].
  rewrite (kn_sum U tts o h); [|lia|exact Hh|intros r Hr; specialize (Hrich o r ltac:(lia) ltac:(lia)); lia].
  assert (E1 : map (fun g => lower_kn U (sents tts) (o - 1) (tl (words_of U {| ng_text := spaced g; ng_count := cnt U (sents tts) g; ng_proba := Some (kneser_ney U (sents tts) g) |}))) (F U tts h) = map (fun g => lower_kn U (sents tts) (o - 1) (tl g)) (F U tts h)).
  { apply map_ext_in. intros g Hg. unfold words_of. cbn [ng_text]. rewrite (split_spaced U OK); [reflexivity|]. apply filter_In in Hg. eapply types_tokenish; [exact OK|]. apply Hg. }
  rewrite E1. reflexivity.
Qed.

(** Hence, if the discounts of the order are not negative, the probabilities of the words that follow [h] sum to at most 1 as soon as
    their lower-order values do; this is always so for bigrams. *)
Theorem C85_context_at_most_one : forall U sentencize nb max_order texts sentences store d, 2 <= max_order -> built U sentencize nb max_order texts sentences store ->
  mkn_smoother U (store_ngrams store) max_order (Z.of_nat nb) = Ok d ->
  forall order ngrams h, 2 <= order <= max_order -> dget Nat.eqb order d = Some ngrams -> In h (types U sentences (order - 1)) ->
  (0 <= D2 U sentences order)%Q -> (0 <= D3 U sentences order)%Q ->
  (order = 2%nat \/ qsum_list (map (fun n => lower_kn U sentences (order - 1)%nat (tl (words_of U n))) (after U h ngrams)) <= 1)%Q ->
  exists probas, map ng_proba (after U h ngrams) = map Some probas /\ (qsum_list probas <= 1)%Q.
Proof.
  intros U sz nb M texts sentences s d HM HB E o ns h Ho Hns Hh HD2 HD3 Hlow. pose proof (C56_mkn_values _ _ _ _ _ _ _ _ HM HB E o ltac:(lia)) as Hd.
  destruct (C85_context_sum _ _ _ _ _ _ _ _ HM HB E o ns h Ho Hns Hh) as (ps & Hps & HS). exists ps. split; [exact Hps|]. rewrite HS. clear HS Hps ps.
  destruct (C54_mkn_defined _ _ _ _ _ _ _ HM HB) as [[_ F]|(Hrich & _)]; [congruence|].
  destruct (built_corpus _ _ _ _ _ _ _ HB) as (tts & -> & Hc). change (concat tts) with (sents tts) in *. rewrite Hns in Hd. injection Hd as ->.
  pose proof (b_udb _ _ _ _ _ _ _ HB) as OK. pose proof (types_length U tts (o - 1) h ltac:(lia) Hh) as Hl.
  assert (HR : forall r, 1 <= r <= 3 -> 1 <= with_count U (sents tts) o r) by (intros r Hr; specialize (Hrich o r ltac:(lia) ltac:(lia)); lia).
  rewrite (after_types U tts o h OK) in * by lia. rewrite !map_map in *. cbn [ng_count ng_proba].
  assert (E1 : map (fun g => lower_kn U (sents tts) (o - 1) (tl (words_of U {| ng_text := spaced g; ng_count := cnt U (sents tts) g; ng_proba := Some (kneser_ney U (sents tts) g) |}))) (F U tts h) = map (fun g => lower_kn U (sents tts) (o - 1) (tl g)) (F U tts h)).
  { apply map_ext_in. intros g Hg. unfold words_of. cbn [ng_text]. rewrite (split_spaced U OK); [reflexivity|]. apply filter_In in Hg. eapply types_tokenish; [exact OK|]. apply Hg. }
  rewrite E1 in *. assert (HQ : (qsum_list (map (fun g => lower_kn U (sents tts) (o - 1) (tl g)) (F U tts h)) <= 1)%Q).
  { destruct Hlow as [->|Hlow]; [|exact Hlow]. apply last_words_sum; [exact Hh|]. specialize (HR 1 ltac:(lia)). unfold with_count, how_many in HR.
    destruct (types U (sents tts) 2); [cbn in HR; lia|cbn [length]; lia]. }
  assert (HC : (0 < Qn (cnt U (sents tts) h))%Q) by (apply Qn_pos; eapply cnt_pos; [|exact Hh]; lia).
  assert (HN : (Qn (list_sum (map (cnt U (sents tts)) (F U tts h))) <= Qn (cnt U (sents tts) h))%Q) by (apply Qn_le, followers_count; lia).
  assert (HL : (0 <= left_over U (sents tts) h)%Q).
  { rewrite (left_over_sum U tts h) by lia. rewrite Hl. replace (S (o - 1)) with o by lia. apply sumD_bounds. split; [exact HR|split; assumption]. }
  change Qnat with Qn. set (C := Qn (cnt U (sents tts) h)) in *. set (N := Qn (list_sum _)) in *. set (L := left_over _ _ _) in *. set (q := qsum_list _) in *. clearbody C N L q. clear - HC HN HL HQ.
  assert (H1 : (N / C <= 1)%Q) by (apply Qle_shift_div_r; [exact HC|lra]).
  assert (H2 : (0 <= L / C * (1 - q))%Q) by (apply Qmult_le_0_compat; [apply Qle_shift_div_l; lra|lra]). lra.
Qed.

(** A corpus of two-word sentences: the context "a" occurs eleven times and is followed nine times, by b, c or d. *)
Definition ab_corpus : list str := map lit ["a b"; "a b"; "a b"; "a b"; "a c"; "a c"; "a c"; "a d"; "a d"; "b a"; "c a"]%string.
Example C85_witness : exists s d ngrams probas,
  built ascii_udb one_sentence 2 2 ab_corpus (map (split_ws ascii_space) ab_corpus) s /\ mkn_smoother ascii_udb (store_ngrams s) 2 2 = Ok d /\
  dget Nat.eqb 2 d = Some ngrams /\ In [lit "a"] (types ascii_udb (map (split_ws ascii_space) ab_corpus) 1) /\
  (0 <= D2 ascii_udb (map (split_ws ascii_space) ab_corpus) 2)%Q /\ (0 <= D3 ascii_udb (map (split_ws ascii_space) ab_corpus) 2)%Q /\
  map ng_text (after ascii_udb [lit "a"] ngrams) = map lit ["a b"; "a c"; "a d"]%string /\
  map ng_proba (after ascii_udb [lit "a"] ngrams) = map Some probas /\ (qsum_list probas == 8 # 11)%Q.
Proof.
  pose (s := match build_store ascii_udb one_sentence 2 2 ab_corpus with Ok s => s | Err _ => [] end).
  pose (d := match mkn_smoother ascii_udb (store_ngrams s) 2 2 with Ok d => d | Err _ => [] end).
  pose (ns := match dget Nat.eqb 2 d with Some l => l | None => [] end).
  pose (ps := map (fun n => match ng_proba n with Some p => p | None => 0%Q end) (after ascii_udb [lit "a"] ns)).
  exists s, d, ns, ps. split; [|split; [|split; [|split; [|split; [|split; [|split; [|split]]]]]]].
  - split; [exact ascii_udb_ok|split; [lia|vm_compute; discriminate]|eexists; split; [vm_compute; reflexivity|vm_compute; reflexivity]|vm_compute; reflexivity|vm_compute; discriminate].
  - vm_compute. reflexivity.
  - vm_compute. reflexivity.
  - vm_compute. auto.
  - vm_compute. discriminate.
  - vm_compute. discriminate.
  - vm_compute. reflexivity.
  - vm_compute. reflexivity.
  - vm_compute. reflexivity.
Qed.
Print Assumptions C85_context_sum.
Print Assumptions C85_context_at_most_one.
