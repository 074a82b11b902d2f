(** C58: a saved language model can be loaded back. *)
From Coq Require Import Ascii String.
From Coq Require Import List NArith ZArith QArith Qabs Arith Bool Lia Lqa.
From Verif Require Import PyBase Regex MUtils SUtils LBase LText LUtils MNgram SLangModel LNgram MLangModel LLangModel MSmooth MBuilder LSmooth LCorpus LMkn LMkn2 LBuilder LSave LSave2 LUdb PSmooth.
Import ListNotations.
Local Open Scope nat_scope.

Definition smooth (sm : smoothing) (U : udb) (ngrams : list ngram) (max_order : nat) (nb : Z) : res by_order :=
  match sm with MKN => mkn_smoother U ngrams max_order nb | MLE => mle_smoother U ngrams max_order nb end.

Lemma smooth_entries sm U sz nb M texts tts s d : (sm = MKN -> 2 <= M) -> built U sz nb M texts (concat tts) s -> store_ngrams s = corpus U M tts -> smooth sm U (store_ngrams s) M (Z.of_nat nb) = Ok d ->
  exists pr, forall o, 1 <= o <= M -> get_order_or_nil d o = map (entry U tts pr o) (types U (sents tts) o).
Proof.
  intros HM HB Hc E. destruct sm.
  - exists (fun _ => kneser_ney U (sents tts)). intros o Ho. unfold get_order_or_nil. rewrite (C56_mkn_values _ _ _ _ _ _ _ _ (HM eq_refl) HB E o Ho). reflexivity.
  - cbn [smooth] in E. pose proof HB as HB0. destruct HB as [OK [Hn1 Hn2] _ _ Hsz].
    assert (HF : Forall (fun n => 1 <= ng_order U n <= M /\ 1 <= ng_count n) (store_ngrams s)).
    { rewrite Hc. apply Forall_forall. intros n Hn. apply (In_corpus U OK) in Hn. destruct Hn as (o & g & Ho & Hg & ->). rewrite (order_mk U OK) by (eapply types_tokenish; [exact OK|exact Hg]).
      rewrite (types_length U tts o g) by (assumption || lia). split; [exact Ho|]. cbn. apply (cnt_pos U tts o); [lia|exact Hg]. }
    destruct (C53_mle_total_partial U (store_ngrams s) M nb Hn1 Hn2 Hsz HF) as [[Hall _]|[_ F]]; [|rewrite E in F; discriminate].
    destruct (C52_mle_probabilities U (store_ngrams s) M nb Hn1 Hn2 Hsz HF Hall) as (d' & E' & Hd). rewrite E in E'. injection E' as <-.
    exists (fun o g => (Qnat (cnt U (sents tts) g) / Qnat (list_sum (map ng_count (filter (fun n => ng_order U n =? o) (store_ngrams s)))))%Q).
    intros o Ho. destruct (Hd o Ho) as [Hg _]. unfold get_order_or_nil. rewrite Hg.
    change (filter (fun n => ng_order U n =? o) (store_ngrams s)) with (of_order U o (store_ngrams s)). rewrite Hc. rewrite (corpus_order U OK) by exact Ho. rewrite map_map. apply map_ext. intros g. unfold entry. cbn [mk ng_text ng_count ng_proba].
    change (filter (fun n => ng_order U n =? o) (corpus U M tts)) with (of_order U o (corpus U M tts)). rewrite (corpus_order U OK) by exact Ho. reflexivity.
Qed.

(** ** C58 *)
(** What the builder writes can be loaded, unless a probability is so small that it is written as 0. [log] is math.log,
    of which only its domain matters. *)
Theorem C58_saved_model_loads_partial : forall U sentencize nb max_order texts sentences store sm d contents L log,
  (sm = MKN -> 2 <= max_order) -> built U sentencize nb max_order texts sentences store ->
  smooth sm U (store_ngrams store) max_order (Z.of_nat nb) = Ok d ->
  builder U sentencize max_order sm nb texts = Ok contents ->
  (forall q, (0 < q)%Q -> exists l, log q = Ok l) ->
  let tiny := ((1 # 2) / inject_Z (10 ^ 17))%Q in
  let computed n p := exists order ngrams, 1 <= order <= max_order /\ dget Nat.eqb order d = Some ngrams /\ In n ngrams /\ ng_proba n = Some p /\ (0 < p)%Q in
  (forall n p, computed n p -> (tiny < p)%Q) ->
  exists m, load_lm U Q L Qle_bool (float_of_str (u_space U)) log (repeat 1%Z max_order) (map file_lines contents) = Ok m /\
    let same n p details := d_count details = Z.of_nat (ng_count n) /\ (Qabs (d_proba details - p) <= tiny)%Q /\ log (d_proba details) = Ok (d_logp details) in
    (forall text details, dget str_eqb text (lm_details m) = Some details -> exists n p, computed n p /\ ng_text n = text /\ same n p details) /\
    (forall n p, computed n p -> exists details, dget str_eqb (ng_text n) (lm_details m) = Some details /\ same n p details).
Proof.
  intros U sz nb M texts sentences s sm d contents L log HM HB E Hb Hlog tiny computed Htiny. pose proof HB as HB0. destruct (built_corpus _ _ _ _ _ _ _ HB) as (tts & -> & Hc). destruct HB as [OK [Hn1 Hn2] _ Hs Hsz].
  destruct (smooth_entries sm U sz nb M texts tts s d HM HB0 Hc E) as (pr & Hpr).
  assert (Hcomp : forall n p, computed n p <-> exists o g, 1 <= o <= M /\ In g (types U (sents tts) o) /\ (0 < pr o g)%Q /\ n = entry U tts pr o g /\ p = pr o g).
  { intros n p. split.
    - intros (o & ns & Ho & Hns & Hn & Hp & Hpos). specialize (Hpr o Ho). unfold get_order_or_nil in Hpr. rewrite Hns in Hpr. subst ns. apply in_map_iff in Hn. destruct Hn as (g & <- & Hg). cbn in Hp. injection Hp as <-. exists o, g. auto.
    - intros (o & g & Ho & Hg & Hp & -> & ->). specialize (Hpr o Ho). unfold get_order_or_nil in Hpr. destruct (dget Nat.eqb o d) as [ns|] eqn:En.
      + exists o, ns. repeat split; try assumption; try lia. subst ns. apply in_map. exact Hg.
      + destruct (types U (sents tts) o); [destruct Hg|discriminate]. }
  assert (Ec : contents = map (fun o => flat_map (fun l => l ++ [10%N]) (map line_of (kept (order_pairs U tts pr o)))) (seq 1 M)).
  { unfold builder in Hb. destruct sm.
    - destruct (Nat.ltb_spec M 2) as [F|_]; [discriminate|]. rewrite Hs in Hb. cbn [rbind] in Hb. cbn [smooth] in E. rewrite E in Hb. cbn [rbind] in Hb. rewrite (saved_contents U tts pr M d Hpr) in Hb. injection Hb as <-. reflexivity.
    - rewrite Hs in Hb. cbn [rbind] in Hb. cbn [smooth] in E. rewrite E in Hb. cbn [rbind] in Hb. rewrite (saved_contents U tts pr M d Hpr) in Hb. injection Hb as <-. reflexivity. }
  destruct (saved_loads U OK tts pr M L log Hlog) as (m & El & H1 & H2).
  { intros o g Ho Hg Hp. apply (Htiny (entry U tts pr o g)). apply Hcomp. exists o, g. auto. }
  exists m. rewrite Ec. split; [exact El|]. split.
  - intros text det Hg. destruct (H1 text det Hg) as (o & g & Ho & Hg' & Hp & Ht & Hm). exists (entry U tts pr o g), (pr o g). split; [apply Hcomp; exists o, g; auto|]. split; [exact Ht|exact Hm].
  - intros n p Hn. apply Hcomp in Hn. destruct Hn as (o & g & Ho & Hg & Hp & -> & ->). destruct (H2 o g Ho Hg Hp) as (det & Hd & Hm). exists det. split; [exact Hd|exact Hm].
Qed.
Example C58_witness : exists s d contents, built ascii_udb one_sentence 2 3 kn_corpus (map (split_ws ascii_space) kn_corpus) s /\ smooth MKN ascii_udb (store_ngrams s) 3 2 = Ok d /\
  builder ascii_udb one_sentence 3 MKN 2 kn_corpus = Ok contents /\
  forallb (fun o => forallb (fun n => match ng_proba n with Some p => Qle_bool p 0 || negb (Qle_bool p ((1 # 2) / inject_Z (10 ^ 17))) | None => false end) (get_order_or_nil d o)) [1; 2; 3] = true.
Proof.
  pose (s := match build_store ascii_udb one_sentence 2 3 kn_corpus with Ok s => s | Err _ => [] end).
  pose (d := match mkn_smoother ascii_udb (store_ngrams s) 3 2 with Ok d => d | Err _ => [] end).
  pose (c := match builder ascii_udb one_sentence 3 MKN 2 kn_corpus with Ok c => c | Err _ => [] end).
  exists s, d, c. split; [|split; [|split]].
  - split; [exact ascii_udb_ok|split; [lia|vm_compute; discriminate]|eexists; split; [vm_compute; reflexivity|vm_compute; reflexivity]|vm_compute; reflexivity|vm_compute; discriminate].
  - vm_compute. reflexivity.
  - vm_compute. reflexivity.
  - vm_compute. reflexivity.
Qed.

(** The property is false: a word that occurs once among more than 2 * 10^17 has a probability that is written as 0, of which
    there is no logarithm. *)
Lemma foldM_some_err {A B} (f : A -> B -> res A) e l : forall a, (forall x, In x l -> (forall a, exists a', f a x = Ok a') \/ forall a, f a x = Err e) ->
  (exists x, In x l /\ forall a, f a x = Err e) -> foldM f a l = Err e.
Proof.
  induction l as [|x l IH]; intros a H (y & Hy & Ey); [destruct Hy|]. cbn [foldM]. destruct (H x (or_introl eq_refl)) as [Hx|Hx].
  - destruct (Hx a) as (a' & ->). cbn [rbind]. apply IH; [intros; apply H; right; assumption|]. destruct Hy as [->|Hy]; [destruct (Hx a) as (a2 & E); rewrite Ey in E; discriminate|]. exists y. auto.
  - rewrite Hx. reflexivity.
Qed.
Lemma round_small q : (0 <= q)%Q -> (q < 1 # 2)%Q -> round_half_even q = 0%Z.
Proof.
  intros H0 H1. pose proof (round_close q) as Hc. apply Qabs_Qle_condition in Hc. destruct Hc as [C1 C2]. set (r := round_half_even q) in *.
  assert (A : (inject_Z (-1) < inject_Z r)%Q) by (change (inject_Z (-1)) with (-1)%Q; lra). assert (B : (inject_Z r < inject_Z 1)%Q) by (change (inject_Z 1) with 1%Q; lra).
  rewrite <- Zlt_Qlt in A, B. lia.
Qed.
Definition many (n : nat) : list str := repeat (lit "a") n ++ [lit "b"].
Lemma many_sentenced n : mapM one_sentence (many n) = Ok (repeat [[lit "a"]] n ++ [[[lit "b"]]]).
Proof. unfold many. induction n as [|n IH]; [reflexivity|]. cbn [repeat app mapM]. rewrite IH. reflexivity. Qed.
Definition many_tts (n : nat) : list (list (list str)) := repeat [[lit "a"]] n ++ [[[lit "b"]]].
Lemma many_ngrams n : ngrams_of ascii_udb 1 (sents (many_tts n)) = repeat [lit "a"] n ++ [[lit "b"]].
Proof. unfold many_tts, sents. induction n as [|n IH]; [reflexivity|]. cbn [repeat app concat]. unfold ngrams_of in *. cbn [app flat_map]. rewrite IH. reflexivity. Qed.
Lemma many_types n : 1 <= n -> types ascii_udb (sents (many_tts n)) 1 = [[lit "a"]; [lit "b"]].
Proof.
  intros Hn. unfold types. rewrite many_ngrams. destruct n as [|n]; [lia|]. clear Hn. induction n as [|n IH]; [reflexivity|].
  change (repeat [lit "a"] (S (S n)) ++ [[lit "b"]]) with ([lit "a"] :: repeat [lit "a"] (S n) ++ [[lit "b"]]). cbn [firsts]. cbn [firsts] in IH. rewrite IH. reflexivity.
Qed.
Lemma many_cnt n : cnt ascii_udb (sents (many_tts n)) [lit "a"] = n /\ cnt ascii_udb (sents (many_tts n)) [lit "b"] = 1.
Proof.
  unfold cnt. cbn [length]. rewrite many_ngrams. rewrite !filter_app, !app_length.
  assert (E : filter (words_eqb [lit "a"]) (repeat [lit "a"] n) = repeat [lit "a"] n /\ filter (words_eqb [lit "b"]) (repeat [lit "a"] n) = []).
  { induction n as [|n [I1 I2]]; [split; reflexivity|]. split; cbn [repeat filter]; [change (words_eqb [lit "a"] [lit "a"]) with true|change (words_eqb [lit "b"] [lit "a"]) with false]; cbn iota; congruence. }
  destruct E as [-> ->]. rewrite repeat_length. cbn. lia.
Qed.
Lemma many_refutes n : (2 * 10 ^ 17 < Z.of_nat n)%Z -> exists contents, builder ascii_udb one_sentence 1 MLE 1 (many n) = Ok contents /\
  forall L log, (forall q, (0 < q)%Q -> exists l, log q = Ok l) -> (forall q, (q == 0)%Q -> log q = Err ValueError) ->
  load_lm ascii_udb Q L Qle_bool (float_of_str (u_space ascii_udb)) log [1%Z] (map file_lines contents) = Err ValueError.
Proof.
  intros Hn. assert (H1 : 1 <= n) by lia. set (tts := many_tts n).
  assert (Hs : build_store ascii_udb one_sentence 1 1 (many n) = Ok (store_of (all_ngrams ascii_udb 1 tts))) by (rewrite (build_store_spec ascii_udb ascii_udb_ok) by lia; rewrite many_sentenced; reflexivity).
  assert (Hc : store_ngrams (store_of (all_ngrams ascii_udb 1 tts)) = corpus ascii_udb 1 tts) by reflexivity.
  destruct (many_cnt n) as [Ca Cb]. fold tts in Ca, Cb. assert (Ht : types ascii_udb (sents tts) 1 = [[lit "a"]; [lit "b"]]) by (apply many_types; exact H1).
  assert (Ho : forall g, In g (types ascii_udb (sents tts) 1) -> length g = 1) by (intros g Hg; eapply types_length; [lia|exact Hg]).
  assert (Hcorp : corpus ascii_udb 1 tts = map (mk ascii_udb tts) [[lit "a"]; [lit "b"]]).
  { rewrite <- Ht, <- (corpus_order ascii_udb ascii_udb_ok 1 tts 1) by lia. unfold of_order. symmetry. apply filter_true. intros x Hx. apply (In_corpus ascii_udb ascii_udb_ok) in Hx.
    destruct Hx as (o & g & Ho' & Hg & ->). assert (o = 1) by lia. subst o. rewrite (order_mk ascii_udb ascii_udb_ok) by (eapply types_tokenish; [exact ascii_udb_ok|exact Hg]). apply Nat.eqb_eq. apply Ho. exact Hg. }
  assert (HF : Forall (fun n => 1 <= ng_order ascii_udb n <= 1 /\ 1 <= ng_count n) (corpus ascii_udb 1 tts)).
  { rewrite Hcorp. repeat constructor; cbn [mk ng_count]; try (vm_compute; lia); try lia. }
  destruct (C52_mle_probabilities ascii_udb (corpus ascii_udb 1 tts) 1 1) as (d & E & Hd); try exact HF; try lia.
  { rewrite Hcorp. cbn. lia. }
  { intros o Ho'. assert (o = 1) by lia. subst o. exists (mk ascii_udb tts [lit "a"]). split; [rewrite Hcorp; left; reflexivity|reflexivity]. }
  destruct (Hd 1 ltac:(lia)) as [Hd1 _]. set (total := list_sum (map ng_count (filter (fun n => ng_order ascii_udb n =? 1) (corpus ascii_udb 1 tts)))) in Hd1.
  assert (Htot : total = S n).
  { unfold total. change (filter (fun n => ng_order ascii_udb n =? 1) (corpus ascii_udb 1 tts)) with (of_order ascii_udb 1 (corpus ascii_udb 1 tts)). rewrite (corpus_order ascii_udb ascii_udb_ok) by lia. rewrite Ht. cbn [map mk ng_count]. rewrite Ca, Cb. cbn. lia. }
  pose (pr := fun (_ : nat) g => (Qnat (cnt ascii_udb (sents tts) g) / Qnat total)%Q).
  assert (Hpr : forall o, 1 <= o <= 1 -> get_order_or_nil d o = map (entry ascii_udb tts pr o) (types ascii_udb (sents tts) o)).
  { intros o Ho'. assert (o = 1) by lia. subst o. unfold get_order_or_nil. rewrite Hd1.
    change (filter (fun n => ng_order ascii_udb n =? 1) (corpus ascii_udb 1 tts)) with (of_order ascii_udb 1 (corpus ascii_udb 1 tts)). rewrite (corpus_order ascii_udb ascii_udb_ok) by lia. rewrite map_map. reflexivity. }
  eexists. split.
  - unfold builder. rewrite Hs. cbn [rbind]. rewrite Hc. change (Z.of_nat 1) with 1%Z in *. rewrite E. cbn [rbind]. apply (saved_contents ascii_udb tts pr 1 d Hpr).
  - intros L log Hlog Hlog0. cbn [seq map]. unfold load_lm. cbn [combine foldM]. unfold load_file.
    assert (Hpa : pr 1 [lit "a"] = (Qnat n / Qnat (S n))%Q) by (unfold pr; rewrite Ca, Htot; reflexivity).
    assert (Hpb : pr 1 [lit "b"] = (Qnat 1 / Qnat (S n))%Q) by (unfold pr; rewrite Cb, Htot; reflexivity).
    assert (Hin : forall np, In np (kept (order_pairs ascii_udb tts pr 1)) <-> np = (entry ascii_udb tts pr 1 [lit "a"], pr 1 [lit "a"]) \/ np = (entry ascii_udb tts pr 1 [lit "b"], pr 1 [lit "b"])).
    { intros np. rewrite In_kept. unfold order_pairs. rewrite Ht. cbn [map In]. split; [intros [[<-|[<-|[]]] _]; auto|].
      assert (P : (0 < Qnat (S n))%Q) by (unfold Qnat; change 0%Q with (inject_Z 0); rewrite <- Zlt_Qlt; lia).
      intros [->| ->]; (split; [auto|]); cbn [snd]; rewrite ?Hpa, ?Hpb; apply Qlt_shift_div_l; try exact P; rewrite Qmult_0_l; unfold Qnat; change 0%Q with (inject_Z 0); rewrite <- Zlt_Qlt; lia. }
    assert (Ha : fine (entry ascii_udb tts pr 1 [lit "a"], pr 1 [lit "a"])).
    { split; [|split; [cbn [fst entry ng_count]; rewrite Ca; exact H1|]].
      - apply (spaced_clean ascii_udb ascii_udb_ok). repeat constructor; try discriminate.
      - cbn [snd]. rewrite Hpa. unfold half17. apply Qlt_shift_div_l; [unfold Qnat; change 0%Q with (inject_Z 0); rewrite <- Zlt_Qlt; lia|].
        unfold Qnat, Qlt, ten17. cbn. lia. }
    assert (Hb0 : round_half_even (pr 1 [lit "b"] * inject_Z ten17) = 0%Z).
    { assert (P : (0 < Qnat (S n))%Q) by (unfold Qnat; change 0%Q with (inject_Z 0); rewrite <- Zlt_Qlt; lia).
      assert (Eq : (pr 1%nat [lit "b"] * inject_Z ten17 == inject_Z ten17 / Qnat (S n))%Q) by (rewrite Hpb; change (Qnat 1%nat) with 1%Q; field; lra).
      apply round_small; rewrite Eq; [apply Qle_shift_div_l|apply Qlt_shift_div_r]; try exact P; [discriminate|].
      unfold Qnat, Qlt, ten17. cbn. lia. }
    assert (Hpbpos : (0 < pr 1%nat [lit "b"])%Q).
    { rewrite Hpb. apply Qlt_shift_div_l; [unfold Qnat; change 0%Q with (inject_Z 0); rewrite <- Zlt_Qlt; lia|reflexivity]. }
    assert (Hlines : file_lines (flat_map (fun l => l ++ [10%N]) (map line_of (kept (order_pairs ascii_udb tts pr 1)))) = map (fun np => line_of np ++ [10%N]) (kept (order_pairs ascii_udb tts pr 1))).
    { rewrite file_lines_concat, map_map; [reflexivity|]. apply Forall_forall. intros l Hl. apply in_map_iff in Hl. destruct Hl as (np & <- & Hnp). apply Hin in Hnp. destruct Hnp as [->| ->].
      - apply line_no_eol; [apply Ha|]. destruct Ha as (_ & _ & Ha). eapply Qlt_trans; [exact half17_pos|exact Ha].
      - apply line_no_eol; [|exact Hpbpos]. apply (spaced_clean ascii_udb ascii_udb_ok). repeat constructor; discriminate. }
    rewrite Hlines. assert (Hberr : forall dd, load_line ascii_udb Q L (float_of_str (u_space ascii_udb)) log 1 dd (line_of (entry ascii_udb tts pr 1 [lit "b"], pr 1 [lit "b"]) ++ [10%N]) = Err ValueError).
    { intros dd. unfold load_line, line_of. cbn [fst snd entry ng_text ng_count]. rewrite <- app_assoc. cbn [app]. rewrite split_chr_app by (intros [F|[]]; discriminate). rewrite <- app_assoc. cbn [app].
      rewrite split_chr_app by (apply digits_no; [apply str_of_nat_digits|lia]).
      rewrite split_chr_none by (intros F; apply in_app_or in F; destruct F as [F|[F|[]]]; [revert F; apply fmt17_no; auto|discriminate]).
      rewrite (int_str ascii_udb ascii_udb_ok). cbn [rbind]. rewrite Cb. cbn [Z.of_nat Z.leb Z.compare Pos.of_succ_nat Pos.compare Pos.compare_cont].
      pose proof (float_fmt ascii_udb ascii_udb_ok (pr 1 [lit "b"]) Hpbpos) as Ff. rewrite Ff. cbn [rbind]. rewrite Hlog0; [reflexivity|].
      rewrite written_eq, Hb0. reflexivity. }
    rewrite (foldM_some_err _ ValueError).
    + reflexivity.
    + intros l Hl. apply in_map_iff in Hl. destruct Hl as (np & <- & Hnp). apply Hin in Hnp. destruct Hnp as [->| ->]; [left|right; exact Hberr].
      intros dd. destruct (load_line_ok ascii_udb ascii_udb_ok L log Hlog dd _ Ha) as (det & El & _). eexists. exact El.
    + eexists. split; [|exact Hberr]. apply in_map_iff. eexists. split; [reflexivity|]. apply Hin. right. reflexivity.
Qed.
Theorem C58_saved_model_loads_refuted : exists texts contents, builder ascii_udb one_sentence 1 MLE 1 texts = Ok contents /\
  forall L log, (forall q, (0 < q)%Q -> exists l, log q = Ok l) -> (forall q, (q == 0)%Q -> log q = Err ValueError) ->
  load_lm ascii_udb Q L Qle_bool (float_of_str (u_space ascii_udb)) log [1%Z] (map file_lines contents) = Err ValueError.
Proof. exists (many (Z.to_nat (3 * 10 ^ 17))). apply many_refutes. rewrite Z2Nat.id; reflexivity || discriminate. Qed.
Print Assumptions C58_saved_model_loads_partial.
Print Assumptions C58_saved_model_loads_refuted.
