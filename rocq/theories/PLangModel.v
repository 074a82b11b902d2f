(** C43-C51: language model queries, ngram extraction and counting. Each theorem is followed by a case that meets its
    hypotheses. *)
From Coq Require Import Ascii String.
From Coq Require Import List NArith ZArith QArith Arith Bool Lia Permutation Sorted.
From Verif Require Import PyBase Regex MUtils SUtils LBase LText LUtils LUdb MNgram MLangModel MSmooth MBuilder SLangModel LNgram LLangModel LBuilder.
Import ListNotations.
Local Open Scope nat_scope.

(** The numbers of the witnesses: probabilities are integers (billionths) and the logarithm is any increasing function
    that raises on zero. *)
Definition w_log (p : Z) : res (option Z) := if (p <=? 0)%Z then Err ValueError else Ok (Some p).
Definition w_leL (x y : option Z) : bool := match x, y with None, _ => true | Some _, None => false | Some a, Some b => (a <=? b)%Z end.
Definition w_load := load_lm ascii_udb Z (option Z) Z.leb (int_of_str ascii_space) w_log.
Definition w_files : list (list str) :=
  let tab a b c := lit a ++ [9%N] ++ lit b ++ [9%N] ++ lit c ++ [10%N] in
  [ [tab "the"%string "9"%string "500"%string; tab "cat"%string "3"%string "200"%string; tab "hat"%string "3"%string "300"%string; tab "emu"%string "1"%string "10"%string];
    [tab "the cat"%string "3"%string "40"%string; tab "the hat"%string "2"%string "60"%string; tab "cat hat"%string "2"%string "7"%string] ].
Definition w_lm : lm Z (option Z) := match w_load [2%Z; 1%Z] w_files with Ok m => m | Err _ => {| lm_max_order := 0; lm_details := []; lm_next := [] |} end.
Definition w_tokenize (s : option str) : res (list str) := Ok (match s with Some t => split_ws ascii_space t | None => [[]] end).
Example w_loaded : w_load [2%Z; 1%Z] w_files = Ok w_lm /\ lm_len _ _ w_lm = 6.
Proof. split; vm_compute; reflexivity. Qed.
Example w_order : total_order w_leL /\ antisym w_leL /\ (forall x, w_leL None x = true) /\ (forall p l, w_log p = Ok l -> w_leL l None = false).
Proof.
  split; [split|split; [|split]].
  - intros [a|] [b|]; cbn; auto. rewrite !Z.leb_le. lia.
  - intros [a|] [b|] [c|]; cbn; auto; try discriminate. rewrite !Z.leb_le. lia.
  - intros [a|] [b|]; cbn; try discriminate; [|reflexivity]. rewrite !Z.leb_le. intros. f_equal. lia.
  - reflexivity.
  - intros p l. unfold w_log. destruct (p <=? 0)%Z; [discriminate|]. intros H. injection H as <-. reflexivity.
Qed.

(** ** C43 *)
Theorem C43_contains : forall (U : udb) (P L : Type) (leP : P -> P -> bool) float_of_str (log : P -> res L) min_counts files m x,
  load_lm U P L leP float_of_str log min_counts files = Ok m ->
  (lm_contains P L m x = true <->
   exists order min_count lines line count, nth_error min_counts order = Some min_count /\ nth_error files order = Some lines /\
     In line lines /\ line_entry U line = Some (x, count) /\ (min_count <= count)%Z).
Proof.
  intros U P L leP fl lg mcs files m x H. rewrite (contains_entries U leP fl lg mcs files m x H). split.
  - intros (c & Hc). apply In_entries in Hc. destruct Hc as (i & mc & lines & line & Hc). exists i, mc, lines, line, c. exact Hc.
  - intros (i & mc & lines & line & c & Hc). exists c. apply In_entries. exists i, mc, lines, line. exact Hc.
Qed.
Theorem C43_has_ngram : forall (U : udb) (P L : Type) (leP : P -> P -> bool) zero ninf float_of_str (log : P -> res L) min_counts files m x k,
  load_lm U P L leP float_of_str log min_counts files = Ok m ->
  (has_ngram P L zero ninf m x k = true <->
   (1 <= k)%Z /\ exists count, last_of (values_of str_eqb x (entries U min_counts files)) = Some count /\ (k <= count)%Z).
Proof.
  intros U P L leP zero ninf fl lg mcs files m x k H. apply load_lm_ok in H. destruct H as (_ & Hd & _). specialize (Hd x).
  unfold has_ngram, lookup. destruct (Z.ltb_spec k 1) as [Hk|Hk].
  - split; [discriminate|]. intros [H1 _]. lia.
  - rewrite <- Hd. destruct (dget str_eqb x (lm_details m)) as [e|]; cbn.
    + rewrite Z.leb_le. split; [intros H1; split; [lia|]; eauto|]. intros [_ (c & Hc & Hle)]. injection Hc as <-. exact Hle.
    + rewrite Z.leb_le. split; [lia|]. intros [_ (c & Hc & _)]. discriminate.
Qed.
Example C43_witness : lm_contains _ _ w_lm (lit "cat hat") = true /\ lm_contains _ _ w_lm (lit "emu") = false /\
  has_ngram _ _ 0%Z None w_lm (lit "cat") 3 = true /\ has_ngram _ _ 0%Z None w_lm (lit "cat") 4 = false /\ has_ngram _ _ 0%Z None w_lm (lit "emu") 0 = false.
Proof. repeat split; vm_compute; reflexivity. Qed.

(** ** C44 *)
Theorem C44_best_ngram : forall (U : udb) (P L : Type) (leP : P -> P -> bool) (leL : L -> L -> bool) zero ninf float_of_str (log : P -> res L) min_counts files m ngrams,
  total_order leL -> (forall x, leL ninf x = true) -> (forall p l, log p = Ok l -> leL l ninf = false) ->
  load_lm U P L leP float_of_str log min_counts files = Ok m ->
  (forall x, In x ngrams -> lm_contains P L m x = false) /\ best_ngram P L leL zero ninf m ngrams = Ok None \/
  exists before x after, ngrams = before ++ x :: after /\ best_ngram P L leL zero ninf m ngrams = Ok (Some x) /\ lm_contains P L m x = true /\
    (forall y, In y ngrams -> leL (logp P L zero ninf m y) (logp P L zero ninf m x) = true) /\
    (forall y, In y before -> leL (logp P L zero ninf m x) (logp P L zero ninf m y) = false).
Proof. intros. eapply best_ngram_spec; eassumption. Qed.
(** The log-probability that the theorem speaks of: that of the last line kept for the ngram, minus infinity without any. *)
Theorem C44_logp : forall (U : udb) (P L : Type) (leP : P -> P -> bool) zero ninf float_of_str (log : P -> res L) min_counts files m x,
  load_lm U P L leP float_of_str log min_counts files = Ok m ->
  if lm_contains P L m x then exists p, log p = Ok (logp P L zero ninf m x) else logp P L zero ninf m x = ninf.
Proof.
  intros U P L leP zero ninf fl lg mcs files m x H. apply load_lm_ok in H. destruct H as (_ & _ & Hl). unfold lm_contains, dmem, logp, lookup.
  destruct (dget str_eqb x (lm_details m)) as [e|] eqn:E; [|reflexivity]. exists (d_proba e). eapply Hl. exact E.
Qed.
Example C44_witness : best_ngram _ _ w_leL 0%Z None w_lm [lit "emu"; lit "cat"; lit "the hat"; lit "hat"] = Ok (Some (lit "hat")) /\
  best_ngram _ _ w_leL 0%Z None w_lm [lit "emu"] = Ok None.
Proof. split; vm_compute; reflexivity. Qed.

(** ** C45 *)
Theorem C45_best_token : forall (P L : Type) (leL : L -> L -> bool) (zero : P) (ninf : L) (tokenize : option str -> res (list str)) (m : lm P L)
    tokens before after tokens_before tokens_after,
  total_order leL -> antisym leL ->
  tokenize before = Ok tokens_before -> tokenize after = Ok tokens_after ->
  let scores t s := token_scores leL ninf (logp P L zero ninf m)
      (fun n c => candidates {| tc_token := t; tc_before := tokens_before; tc_after := tokens_after |} n = Ok c) (lm_max_order m) t s in
  (forall x, In x tokens -> lm_contains P L m x = false) /\ best_token P L leL zero ninf tokenize m tokens before after = Ok None \/
  (exists x, In x tokens /\ lm_contains P L m x = true) /\
  exists earlier x later s, tokens = earlier ++ x :: later /\ best_token P L leL zero ninf tokenize m tokens before after = Ok (Some x) /\ scores x s /\
    (forall y, In y tokens -> exists sy, scores y sy /\ lex_le leL sy s) /\
    (forall y, In y later -> exists sy, scores y sy /\ ~ lex_le leL s sy).
Proof. intros P L leL zero ninf tokenize m tokens before after tb ta HT HA Hb Ha scores. exact (best_token_spec leL zero ninf tokenize HT HA m tokens before after tb ta Hb Ha). Qed.
Example C45_witness : best_token _ _ w_leL 0%Z None w_tokenize w_lm [lit "cat"; lit "hat"; lit "emu"] (Some (lit "in the")) None = Ok (Some (lit "hat")) /\
  best_token _ _ w_leL 0%Z None w_tokenize w_lm [lit "cat"; lit "emu"; lit "cat"] None (Some (lit "hat")) = Ok (Some (lit "cat")).
Proof. split; vm_compute; reflexivity. Qed.

(** ** C46 *)
(** As stated, the property is false: with an order of 4 and two tokens before, a window is lost. *)
Theorem C46_candidates_refuted : exists tc n, 2 <= n /\
  candidates tc n <> Ok (map spaced (windows_at n (length (tc_before tc)) (tc_before tc ++ [tc_token tc] ++ tc_after tc))).
Proof.
  exists {| tc_token := lit "c"; tc_before := [lit "a"; lit "b"]; tc_after := [lit "d"] |}, 4. split; [lia|]. vm_compute. discriminate.
Qed.
(** What holds: nothing but such windows is ever returned, and all of them are when there are enough tokens before, or
    few enough; in particular for orders 2 and 3. *)
Theorem C46_candidates_partial : forall tc n, 2 <= n ->
  let all := map spaced (windows_at n (length (tc_before tc)) (tc_before tc ++ [tc_token tc] ++ tc_after tc)) in
  (exists l, candidates tc n = Ok l /\ forall c, In c l -> In c all) /\
  (n <= 3 \/ n - 1 <= length (tc_before tc) \/ 2 * length (tc_before tc) <= n - 1 -> candidates tc n = Ok all).
Proof.
  intros tc n Hn all. split; [apply candidates_sound; exact Hn|]. intros H. apply candidates_windows; [exact Hn|]. lia.
Qed.
Example C46_witness : candidates {| tc_token := lit "hat"; tc_before := [lit "in"; lit "the"]; tc_after := [lit "or"; lit "not"] |} 3 =
  Ok [lit "in the hat"; lit "the hat or"; lit "hat or not"].
Proof. vm_compute. reflexivity. Qed.

(** The two ngrams at the sides: with just enough tokens on both sides there are [n] candidates, the first one is the left
    ngram and the last one the right ngram. *)
Theorem C46_sides : forall tc n, 2 <= n -> length (tc_before tc) = n - 1 -> length (tc_after tc) = n - 1 ->
  exists l, candidates tc n = Ok l /\ length l = n /\ hd_error l = Some (spaced (left_ngram tc)) /\ last_of l = Some (spaced (right_ngram tc)).
Proof.
  intros tc n Hn Hb Ha. eexists. split; [apply C46_candidates_partial; [exact Hn|right; left; lia]|].
  set (L := tc_before tc ++ [tc_token tc] ++ tc_after tc).
  assert (E : windows_at n (length (tc_before tc)) L = map (fun i => firstn n (skipn i L)) (seq 0 n)).
  { unfold windows_at. assert (EL : length L + 1 - n = n) by (unfold L; rewrite !app_length; cbn [length]; lia). rewrite EL. f_equal.
    rewrite (filter_ext_in _ (fun _ => true)); [clear; induction (seq 0 n) as [|x l IH]; [reflexivity|cbn; rewrite IH; reflexivity]|].
    intros i Hi. apply in_seq in Hi. apply andb_true_iff. split; [apply Nat.leb_le|apply Nat.ltb_lt]; lia. }
  rewrite E. split; [rewrite !map_length; apply seq_length|]. split.
  - destruct n as [|n]; [lia|]. cbn [seq map hd_error skipn]. do 2 f_equal. unfold L, left_ngram. rewrite app_assoc.
    replace (S n) with (length (tc_before tc ++ [tc_token tc]) + 0) by (rewrite app_length; cbn [length]; lia). rewrite firstn_app_2. cbn [firstn]. apply app_nil_r.
  - destruct n as [|n]; [lia|]. rewrite seq_S, !map_app. cbn [map plus].
    assert (G : forall (l : list str) x, last_of (l ++ [x]) = Some x) by (clear; induction l as [|y l IH]; intros x; [reflexivity|]; cbn [app last_of]; rewrite IH; destruct (l ++ [x]) eqn:E; [destruct l; discriminate|reflexivity]).
    rewrite G. do 2 f_equal. unfold L, right_ngram. replace n with (length (tc_before tc) + 0) at 2 by lia. rewrite skipn_app, skipn_all2, Nat.add_0_r, Nat.sub_diag by lia. cbn [app skipn].
    apply firstn_all2. cbn [length]. lia.
Qed.
Example C46_sides_witness : let tc := {| tc_token := lit "hat"; tc_before := [lit "in"; lit "the"]; tc_after := [lit "or"; lit "not"] |} in
  length (tc_before tc) = 3 - 1 /\ length (tc_after tc) = 3 - 1 /\ left_ngram tc = [lit "in"; lit "the"; lit "hat"] /\ right_ngram tc = [lit "hat"; lit "or"; lit "not"].
Proof. repeat split; reflexivity. Qed.

(** ** C47 *)
(** The continuations of a text: for each known ngram of two tokens or more that starts with it and one space, the last
    token and the probability of the ngram. *)
Definition continuations (U : udb) {P L} (details : dict str (details P L)) (text : str) : list (str * P) :=
  flat_map (fun '(ngram, d) =>
    match split_ws (u_space U) ngram with
    | [] | [_] => []
    | ts => if str_eqb (spaced (removelast ts)) text then match last_of ts with Some w => [(w, d_proba d)] | None => [] end else []
    end) details.
Definition suffix (i : nat) (tokens : list str) : str := spaced (skipn (length tokens - i) tokens).
Theorem C47_next_word : forall (U : udb) (P L : Type) (leP : P -> P -> bool) float_of_str (log : P -> res L) tokenize min_counts files m text tokens limit,
  total_order leP -> load_lm U P L leP float_of_str log min_counts files = Ok m -> tokenize (Some text) = Ok tokens ->
  exists result, next_word P L tokenize m text (option_map Z.of_nat limit) = Ok result /\
  ((forall i, 1 <= i <= length min_counts - 1 -> continuations U (lm_details m) (suffix i tokens) = []) /\ result = [] \/
   exists i sorted, 1 <= i <= length min_counts - 1 /\ continuations U (lm_details m) (suffix i tokens) <> [] /\
     (forall j, i < j <= length min_counts - 1 -> continuations U (lm_details m) (suffix j tokens) = []) /\
     by_decreasing leP snd (continuations U (lm_details m) (suffix i tokens)) sorted /\ result = cut limit sorted).
Proof.
  intros U P L leP fl lg tokenize mcs files m text tokens limit HP H Ht. unfold next_word. rewrite Ht. cbn [rbind].
  assert (HM : lm_max_order m = length mcs). { unfold load_lm in H. apply rbind_Ok in H. destruct H as (d & _ & H2). injection H2 as <-. reflexivity. }
  rewrite HM. eexists. split; [reflexivity|]. destruct (Nat.le_gt_cases (length mcs) 1) as [Hl|Hl].
  - left. split; [intros; lia|]. replace (length mcs - 1) with 0 by lia. reflexivity.
  - exact (next_word_loop_spec U leP fl lg mcs files m tokens limit H Hl HP (length mcs - 1)).
Qed.
Example C47_witness : next_word _ _ w_tokenize w_lm (lit "in the") None = Ok [(lit "hat", 60%Z); (lit "cat", 40%Z)] /\
  next_word _ _ w_tokenize w_lm (lit "in the") (Some 1%Z) = Ok [(lit "hat", 60%Z)] /\ next_word _ _ w_tokenize w_lm (lit "emu") None = Ok [].
Proof. repeat split; vm_compute; reflexivity. Qed.

(** ** C48 *)
Theorem C48_top_ngrams : forall (U : udb) (P L : Type) (leP : P -> P -> bool) (m : lm P L) order limit, total_order leP ->
  exists sorted, by_decreasing leP snd
      (map (fun '(x, d) => (x, d_count d, d_proba d)) (filter (fun '(x, d) => length (split_ws (u_space U) x) =? order) (lm_details m))) sorted /\
    top_ngrams U P L leP m order (option_map Z.of_nat limit) = cut limit sorted.
Proof.
  intros U P L leP m order limit HP. unfold top_ngrams. eexists. split; [|apply slice_cut].
  match goal with |- by_decreasing _ _ ?a (sort_desc _ _ _ ?b) => assert (E : a = b) end; [|rewrite E; apply isort_desc_ok; exact HP].
  induction (lm_details m) as [|[x d] l IH]; [reflexivity|]. cbn [filter flat_map]. rewrite <- IH. destruct (length (split_ws (u_space U) x) =? order); reflexivity.
Qed.
Example C48_witness : top_ngrams ascii_udb _ _ Z.leb w_lm 2 (Some 2%Z) = [(lit "the hat", 2%Z, 60%Z); (lit "the cat", 3%Z, 40%Z)].
Proof. vm_compute. reflexivity. Qed.

(** ** C49 *)
Theorem C49_extract_ngrams : forall U sentences n, udb_ok U -> 1 <= n ->
  extract_ngrams U sentences n =
  Ok (flat_map (fun sentence => map (fun window => spaced (map (lower U) window)) (filter (forallb ngram_word) (windows n sentence))) sentences).
Proof.
  intros U sentences n OK Hn. rewrite extract_ngrams_spec by assumption. f_equal. unfold ngrams_of, ngrams_in. rewrite map_flat_map.
  apply flat_map_ext. intros s. rewrite map_map. reflexivity.
Qed.
(** What a window is, and which words are allowed *)
Theorem C49_windows : forall n (sentence window : list str), 1 <= n ->
  (In window (windows n sentence) <-> length window = n /\ exists before after, sentence = before ++ window ++ after).
Proof. intros. apply In_windows. assumption. Qed.
Theorem C49_words : forall w, ngram_word w = true <->
  w = lit "I" \/ ascii_letters w /\ forall c r, w = c :: r -> ~ (65 <= c <= 90)%N.
Proof.
  intros w. unfold ngram_word, ascii_letters. rewrite orb_true_iff, str_eqb_eq. destruct w as [|c w].
  - split; [intros [H|H]; discriminate|]. intros [H|[[H _] _]]; [discriminate|congruence].
  - rewrite andb_true_iff, negb_true_iff, forallb_forall, Forall_forall. split.
    + intros [H|[H1 H2]]; [left; exact H|]. right. split; [split; [discriminate|]|].
      * intros x Hx. apply is_letter_b_iff. apply H1. exact Hx.
      * intros c' r E. injection E as <- <-. intros F. apply andb_false_iff in H2. rewrite !N.leb_gt in H2. lia.
    + intros [H|[[_ H1] H2]]; [left; exact H|]. right. split.
      * intros x Hx. apply is_letter_b_iff. apply H1. exact Hx.
      * specialize (H2 c w eq_refl). apply andb_false_iff. rewrite !N.leb_gt. lia.
Qed.
Example C49_witness : udb_ok ascii_udb /\
  extract_ngrams ascii_udb [[lit "so"; lit "I"; lit "saw"; lit "Tom"; lit "run"; lit "off"]; [lit "no"]] 2 = Ok [lit "so i"; lit "i saw"; lit "run off"].
Proof. split; [exact ascii_udb_ok|vm_compute; reflexivity]. Qed.

(** ** C50 *)
Theorem C50_ngram_store : forall calls, let ngrams := store_ngrams (fold_left make_ngram calls []) in
  map ng_text ngrams = firsts str_eqb calls /\ Forall (fun n => ng_count n = occurrences (ng_text n) calls) ngrams.
Proof.
  intros calls ngrams. unfold ngrams. change (fold_left make_ngram calls []) with (store_of calls). rewrite store_of_spec. unfold store_ngrams, dvalues.
  rewrite !map_map. cbn. split; [apply map_id|]. apply Forall_forall. intros n Hn. apply in_map_iff in Hn. destruct Hn as (t & <- & _). reflexivity.
Qed.
Example C50_witness : map (fun n => (ng_text n, ng_count n)) (store_ngrams (fold_left make_ngram [lit "b"; lit "a"; lit "b"; lit "b"] [])) = [(lit "b", 3); (lit "a", 1)].
Proof. vm_compute. reflexivity. Qed.

(** ** C51 *)
Theorem C51_builder_counts : forall U sentencize nb_processes max_order texts sentenced, udb_ok U -> 1 <= nb_processes ->
  mapM sentencize texts = Ok sentenced ->
  exists store, build_store U sentencize nb_processes max_order texts = Ok store /\
    map ng_text (store_ngrams store) = firsts str_eqb (all_ngrams U max_order sentenced) /\
    Forall (fun n => ng_count n = occurrences (ng_text n) (all_ngrams U max_order sentenced)) (store_ngrams store).
Proof.
  intros U sentencize nb M texts tts OK Hnb H. rewrite build_store_spec by assumption. rewrite H. cbn [rbind]. eexists. split; [reflexivity|].
  apply C50_ngram_store.
Qed.
Theorem C51_independent : forall U sentencize nb_processes nb_processes' max_order texts, udb_ok U -> 1 <= nb_processes -> 1 <= nb_processes' ->
  build_store U sentencize nb_processes max_order texts = build_store U sentencize nb_processes' max_order texts.
Proof. intros. rewrite !build_store_spec by assumption. reflexivity. Qed.
Definition w_sentencize (t : str) : res (list (list str)) := Ok (map (split_ws ascii_space) (split_chr 46%N t)).
Example C51_witness :
  (let! s := build_store ascii_udb w_sentencize 2 2 [lit "the cat. the hat"; lit "the cat"; lit "a hat"] in Ok (map (fun n => (ng_text n, ng_count n)) (store_ngrams s))) =
  Ok [(lit "the", 3); (lit "cat", 2); (lit "hat", 2); (lit "the cat", 2); (lit "the hat", 1); (lit "a", 1); (lit "a hat", 1)] /\
  exists t, mapM w_sentencize [lit "the cat. the hat"; lit "the cat"; lit "a hat"] = Ok t.
Proof. split; [vm_compute; reflexivity|eexists; vm_compute; reflexivity]. Qed.

Print Assumptions C43_contains.
Print Assumptions C43_has_ngram.
Print Assumptions C44_best_ngram.
Print Assumptions C44_logp.
Print Assumptions C45_best_token.
Print Assumptions C46_candidates_refuted.
Print Assumptions C46_candidates_partial.
Print Assumptions C46_sides.
Print Assumptions C47_next_word.
Print Assumptions C48_top_ngrams.
Print Assumptions C49_extract_ngrams.
Print Assumptions C49_windows.
Print Assumptions C49_words.
Print Assumptions C50_ngram_store.
Print Assumptions C51_builder_counts.
Print Assumptions C51_independent.
