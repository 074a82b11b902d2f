(** Lemmas about the language model's queries. *)
From Coq Require Import Ascii String.
From Coq Require Import List NArith ZArith Arith Bool Lia Permutation Sorted.
From Verif Require Import PyBase Regex MUtils SUtils LBase LText LUtils MNgram SLangModel LNgram MLangModel.
Import ListNotations.
Local Open Scope nat_scope.

(** ** candidates *)
Lemma slice_suffix {A} (l : list A) i : exists k, slice (Some i) None l = skipn k l.
Proof. unfold slice. eexists. rewrite firstn_all2; [reflexivity|]. rewrite skipn_length. lia. Qed.
Lemma slice_before {A} (l : list A) r : slice (Some (Z.of_nat (length l) - Z.of_nat r)%Z) None l =
  skipn (if r <=? length l then length l - r else 2 * length l - r) l.
Proof.
  unfold slice. rewrite firstn_all2 by (rewrite skipn_length; lia). f_equal. unfold clamp.
  destruct (Nat.leb_spec r (length l)); destruct (Z.ltb_spec (Z.of_nat (length l) - Z.of_nat r) 0); lia.
Qed.
Lemma filter_true {A} (f : A -> bool) l : (forall x, In x l -> f x = true) -> filter f l = l.
Proof. induction l as [|x l IH]; intros H; [reflexivity|]. cbn. rewrite (H x (or_introl eq_refl)). f_equal. apply IH. intros; apply H; right; assumption. Qed.
Lemma filter_false {A} (f : A -> bool) l : (forall x, In x l -> f x = false) -> filter f l = [].
Proof. induction l as [|x l IH]; intros H; [reflexivity|]. cbn. rewrite (H x (or_introl eq_refl)). apply IH. intros; apply H; right; assumption. Qed.
(** windows of the trimmed context: those of the whole one, when at most [n-1] tokens are kept on both sides *)
Lemma windows_trim {A} n (b : list A) t a k : 1 <= n -> k <= length b -> length b - k <= n - 1 ->
  windows n (skipn k b ++ [t] ++ firstn (n - 1) a) =
  map (fun i => firstn n (skipn i (b ++ [t] ++ a)))
      (filter (fun i => (k <=? i) && (i <=? length b) && (length b <? i + n)) (seq 0 (length (b ++ [t] ++ a) + 1 - n))).
Proof.
  intros Hn Hk Hb. unfold windows.
  assert (E : filter (fun i => (k <=? i) && (i <=? length b) && (length b <? i + n)) (seq 0 (length (b ++ [t] ++ a) + 1 - n)) =
              map (fun i => k + i) (seq 0 (length (skipn k b ++ [t] ++ firstn (n - 1) a) + 1 - n))).
  { set (M := length (b ++ [t] ++ a) + 1 - n). set (M' := length (skipn k b ++ [t] ++ firstn (n - 1) a) + 1 - n).
    assert (HM : M = length b + 1 + length a + 1 - n) by (unfold M; rewrite !app_length; cbn; lia).
    assert (HM' : M' = length b - k + 1 + Nat.min (n - 1) (length a) + 1 - n) by (unfold M'; rewrite !app_length, skipn_length, firstn_length; cbn; lia).
    clearbody M M'. assert (Hle : M' = 0 /\ M <= k \/ M' <> 0 /\ k + M' <= M) by lia.
    destruct Hle as [[-> Hle]|[Hne Hle]].
    - cbn. apply filter_false. intros i Hi. apply in_seq in Hi. destruct (Nat.leb_spec k i); [lia|]. reflexivity.
    - assert (Hs : seq 0 M = seq 0 k ++ seq k M' ++ seq (k + M') (M - k - M')).
      { rewrite <- seq_app. replace (M) with (k + (M' + (M - k - M'))) at 1 by lia. rewrite seq_app. reflexivity. }
      rewrite Hs, !filter_app. rewrite (filter_false _ (seq 0 k)), (filter_false _ (seq (k + M') _)), (filter_true _ (seq k M')).
      + cbn [app]. rewrite app_nil_r. clear. revert k. induction M' as [|m IH]; intros k; [reflexivity|].
        cbn [seq map]. f_equal; [lia|]. rewrite IH, <- seq_shift, map_map. apply map_ext. intros; lia.
      + intros i Hi. apply in_seq in Hi. destruct (Nat.leb_spec k i); [|lia]. destruct (Nat.leb_spec i (length b)); [|lia].
        destruct (Nat.ltb_spec (length b) (i + n)); [reflexivity|lia].
      + intros i Hi. apply in_seq in Hi. destruct (Nat.leb_spec k i); [|lia]. cbn [andb]. destruct (Nat.leb_spec i (length b)); [|reflexivity]. lia.
      + intros i Hi. apply in_seq in Hi. destruct (Nat.leb_spec k i); [lia|]. reflexivity. }
  rewrite E, map_map. apply map_ext_in. intros i Hi. apply in_seq in Hi. rewrite !app_length, skipn_length, firstn_length in Hi. cbn in Hi.
  rewrite <- skipn_skipn_add. replace (skipn k (b ++ [t] ++ a)) with (skipn k b ++ [t] ++ a).
  2:{ rewrite (skipn_app k b). replace (k - length b) with 0 by lia. reflexivity. }
  rewrite !app_assoc. rewrite !(skipn_app i). rewrite app_length, skipn_length. cbn [length].
  replace (i - (length b - k + 1)) with 0 by lia. cbn [skipn]. rewrite !firstn_app. f_equal.
  rewrite firstn_firstn. f_equal. replace (i - (length b - k)) with 0 by lia. rewrite app_length. cbn [skipn length]. lia.
Qed.
Lemma candidates_eq tc n : 2 <= n ->
  let k := if n - 1 <=? length (tc_before tc) then length (tc_before tc) - (n - 1) else 2 * length (tc_before tc) - (n - 1) in
  candidates tc n = Ok (map spaced (map (fun i => firstn n (skipn i (tc_before tc ++ [tc_token tc] ++ tc_after tc)))
      (filter (fun i => (k <=? i) && (i <=? length (tc_before tc)) && (length (tc_before tc) <? i + n)) (seq 0 (length (tc_before tc ++ [tc_token tc] ++ tc_after tc) + 1 - n))))).
Proof.
  intros Hn k. unfold candidates. destruct (Nat.ltb_spec 1 n); [|lia]. rewrite slice_before, slice_to. fold k. f_equal.
  rewrite slide_window_spec by lia. rewrite windows_trim; [reflexivity|lia| |]; unfold k; destruct (Nat.leb_spec (n - 1) (length (tc_before tc))); lia.
Qed.
Lemma candidates_windows tc n : 2 <= n -> n - 1 <= length (tc_before tc) \/ 2 * length (tc_before tc) <= n - 1 ->
  candidates tc n = Ok (map spaced (windows_at n (length (tc_before tc)) (tc_before tc ++ [tc_token tc] ++ tc_after tc))).
Proof.
  intros Hn Hc. rewrite candidates_eq by exact Hn. do 2 f_equal. unfold windows_at. f_equal. apply filter_ext_in. intros i Hi.
  set (b := length (tc_before tc)) in *. clearbody b. destruct (Nat.leb_spec (n - 1) b).
  - destruct (Nat.ltb_spec b (i + n)); [|rewrite !andb_false_r; reflexivity]. destruct (Nat.leb_spec (b - (n - 1)) i); [reflexivity|lia].
  - destruct (Nat.leb_spec (2 * b - (n - 1)) i); [reflexivity|lia].
Qed.
Lemma candidates_sound tc n : 2 <= n -> exists l, candidates tc n = Ok l /\
  forall c, In c l -> In c (map spaced (windows_at n (length (tc_before tc)) (tc_before tc ++ [tc_token tc] ++ tc_after tc))).
Proof.
  intros Hn. rewrite candidates_eq by exact Hn. eexists. split; [reflexivity|]. intros c Hc. apply in_map_iff in Hc. destruct Hc as (w & <- & Hw).
  apply in_map. apply in_map_iff in Hw. destruct Hw as (i & <- & Hi). apply filter_In in Hi. destruct Hi as [Hi Hf]. unfold windows_at. apply in_map_iff. exists i.
  split; [reflexivity|]. apply filter_In. split; [exact Hi|]. apply andb_true_iff in Hf. destruct Hf as [Hf ->]. apply andb_true_iff in Hf. destruct Hf as [_ ->]. reflexivity.
Qed.

  Lemma In_entries U min_counts files x c : In (x, c) (entries U min_counts files) <->
    exists i mc lines line, nth_error min_counts i = Some mc /\ nth_error files i = Some lines /\ In line lines /\ line_entry U line = Some (x, c) /\ (mc <= c)%Z.
  Proof.
    unfold entries. rewrite in_flat_map. split.
    - intros ([mc lines] & Hc & H). apply in_flat_map in H. destruct H as (line & Hl & H).
      apply In_nth_error in Hc. destruct Hc as [i Hi].
      assert (Hz : forall (a : list Z) (b : list (list str)) i x y, nth_error (combine a b) i = Some (x, y) <-> nth_error a i = Some x /\ nth_error b i = Some y).
      { clear. induction a as [|a0 a IH]; intros b i x y; [destruct i; cbn; split; [discriminate|intros [? _]; discriminate|discriminate|intros [? _]; discriminate]|].
        destruct b as [|b0 b]; [destruct i; cbn; (split; [discriminate|intros [_ ?]; discriminate])|].
        destruct i; cbn; [split; [intros E; injection E as -> ->; auto|intros [E1 E2]; congruence]|apply IH]. }
      apply Hz in Hi. exists i, mc, lines, line. destruct (line_entry U line) as [[t k]|]; [|destruct H].
      destruct (Z.leb_spec mc k); [|destruct H]. destruct H as [E|[]]. injection E as -> ->. tauto.
    - intros (i & mc & lines & line & H1 & H2 & Hl & He & Hc). exists (mc, lines). split.
      + assert (Hz : nth_error (combine min_counts files) i = Some (mc, lines)).
        { clear - H1 H2. revert min_counts files H1 H2. induction i as [|i IH]; intros [|a0 a] [|b0 b] H1 H2; cbn in *; try discriminate; [congruence|]. apply IH; assumption. }
        eapply nth_error_In. exact Hz.
      + apply in_flat_map. exists line. split; [exact Hl|]. rewrite He. destruct (Z.leb_spec mc c); [left; reflexivity|lia].
  Qed.

Section LMLemmas.
  Context {P L : Type}.
  Context (U : udb) (leP : P -> P -> bool) (float_of_str : str -> res P) (log : P -> res L).
  Notation load_line := (load_line U P L float_of_str log).
  Notation load_file := (load_file U P L float_of_str log).
  Notation load_lm := (load_lm U P L leP float_of_str log).

  (** ** loading *)
  Definition line_pairs (mc : Z) (line : str) : list (str * Z) :=
    match line_entry U line with Some (text, c) => if (mc <=? c)%Z then [(text, c)] else [] | None => [] end.
  (** what a dictionary of details has to do with a list of entries *)
  Definition dict_ok (d : dict str (details P L)) (l : list (str * Z)) : Prop :=
    NoDup (dkeys d) /\ (forall x, option_map d_count (dget str_eqb x d) = last_of (values_of str_eqb x l)) /\
    (forall x e, dget str_eqb x d = Some e -> log (d_proba e) = Ok (d_logp e)).
  Lemma last_of_app {A} (l : list A) x : last_of (l ++ [x]) = Some x.
  Proof. induction l as [|y l IH]; [reflexivity|]. cbn. destruct (l ++ [x]) eqn:E; [destruct l; discriminate|]. exact IH. Qed.
  Lemma load_line_ok mc d line d' l : dict_ok d l -> load_line mc d line = Ok d' -> dict_ok d' (l ++ line_pairs mc line).
  Proof.
    intros (Hn & Hd & Hl) H. unfold MLangModel.load_line in H. unfold line_pairs, line_entry.
    destruct (split_chr 9%N line) as [|text [|count [|proba [|? ?]]]]; try discriminate.
    destruct (int_of_str (u_space U) count) as [c|e]; [|discriminate]. cbn [rbind] in H.
    destruct (mc <=? c)%Z.
    - destruct (float_of_str proba) as [p|]; [|discriminate]. cbn [rbind] in H. destruct (log p) as [lp|] eqn:Elog; [|discriminate]. cbn [rbind] in H.
      injection H as <-. split; [apply (NoDup_dset _ str_eqb_ok); exact Hn|]. split.
      + intros x. rewrite (dget_dset _ str_eqb_ok). unfold values_of. rewrite filter_app, map_app. cbn [filter fst].
        destruct (str_eqb x text) eqn:E; cbn [map]; [rewrite last_of_app; reflexivity|]. rewrite app_nil_r. apply Hd.
      + intros x e. rewrite (dget_dset _ str_eqb_ok). destruct (str_eqb x text); [|apply Hl]. intros H. injection H as <-. exact Elog.
    - injection H as <-. rewrite app_nil_r. split; [exact Hn|]. split; assumption.
  Qed.
  Lemma load_file_ok mc lines : forall d d' l, dict_ok d l -> load_file d mc lines = Ok d' -> dict_ok d' (l ++ flat_map (line_pairs mc) lines).
  Proof.
    induction lines as [|line lines IH]; intros d d' l Hd H.
    - cbn in H. injection H as <-. cbn. rewrite app_nil_r. exact Hd.
    - unfold MLangModel.load_file in *. cbn [foldM] in H. apply rbind_Ok in H. destruct H as (d1 & H1 & H2). cbn [flat_map]. rewrite app_assoc.
      eapply IH; [|exact H2]. eapply load_line_ok; eassumption.
  Qed.
  Lemma load_lm_ok min_counts files m : load_lm min_counts files = Ok m -> dict_ok (lm_details m) (entries U min_counts files).
  Proof.
    unfold MLangModel.load_lm. intros H. apply rbind_Ok in H. destruct H as (d & H1 & H2). injection H2 as <-. cbn [lm_details].
    unfold entries. assert (G : forall fs d0 l d1, dict_ok d0 l -> foldM (fun d '(mc, lines) => load_file d mc lines) d0 fs = Ok d1 ->
      dict_ok d1 (l ++ flat_map (fun '(min_count, lines) => flat_map (line_pairs min_count) lines) fs)).
    { induction fs as [|[mc lines] fs IH]; intros d0 l d1 Hd H.
      - cbn in H. injection H as <-. cbn. rewrite app_nil_r. exact Hd.
      - cbn [foldM] in H. apply rbind_Ok in H. destruct H as (d2 & Ha & Hb). cbn [flat_map]. rewrite app_assoc. eapply IH; [|exact Hb]. eapply load_file_ok; eassumption. }
    apply (G _ [] [] d) in H1; [exact H1|]. split; [constructor|]. split; [reflexivity|discriminate].
  Qed.
  Lemma last_of_values x (l : list (str * Z)) : (exists c, last_of (values_of str_eqb x l) = Some c) <-> exists c, In (x, c) l.
  Proof.
    assert (E : forall v : list Z, (exists c, last_of v = Some c) <-> exists c, In c v).
    { intros v. destruct v as [|c v]; [split; intros [c H]; [discriminate|destruct H]|]. split; intros _; [exists c; left; reflexivity|].
      revert c. induction v as [|c' v IH]; intros c; [eexists; reflexivity|]. destruct (IH c') as [k Hk]. exists k. exact Hk. }
    rewrite E. unfold values_of. split.
    - intros [c H]. apply in_map_iff in H. destruct H as ([y c'] & <- & H). apply filter_In in H. destruct H as [H Hx]. cbn in Hx. apply str_eqb_eq in Hx. subst y. exists c'. exact H.
    - intros [c H]. exists c. apply in_map_iff. exists (x, c). split; [reflexivity|]. apply filter_In. split; [exact H|]. apply str_eqb_refl.
  Qed.
  Lemma contains_entries min_counts files m x : load_lm min_counts files = Ok m ->
    (lm_contains P L m x = true <-> exists c, In (x, c) (entries U min_counts files)).
  Proof.
    intros H. apply load_lm_ok in H. destruct H as (_ & Hd & _). rewrite <- last_of_values, <- Hd. unfold lm_contains, dmem.
    destruct (dget str_eqb x (lm_details m)) as [e|]; cbn; split; try discriminate; eauto. intros [c Hc]. discriminate.
  Qed.
  (** ** top_ngrams *)
  Lemma isort_desc_ok {A} (key : A -> P) l : total_order leP -> by_decreasing leP key l (sort_desc P leP key l).
  Proof.
    intros [Ht Htr]. unfold sort_desc. split; [apply isort_perm|]. apply isort_sorted.
    - intros a b. destruct (Ht (key b) (key a)); auto.
    - intros a b c H1 H2. eapply Htr; eassumption.
  Qed.
  Definition limit_z (limit : option nat) : option Z := option_map Z.of_nat limit.
  Lemma slice_cut {A} (limit : option nat) (l : list A) : slice None (limit_z limit) l = cut limit l.
  Proof. destruct limit as [k|]; cbn [limit_z option_map cut]; [apply slice_to|]. unfold slice. cbn. rewrite Nat.sub_0_r. apply firstn_all. Qed.

  (** ** next_word *)
  Definition conts (m : dict str (details P L)) (key : str) : list (str * P) :=
    flat_map (fun '(ng, d) =>
      match split_ws (u_space U) ng with
      | [] | [_] => []
      | ts => if str_eqb (spaced (removelast ts)) key then match last_of ts with Some w => [(w, d_proba d)] | None => [] end else []
      end) m.
  Lemma index_last {A} (l : list A) : index l (-1) = of_option IndexError (last_of l).
  Proof.
    destruct l as [|x l]; [reflexivity|]. change (-1)%Z with (- Z.of_nat 1)%Z. rewrite index_neg by lia.
    destruct (exists_last (l := x :: l)) as (l0 & y & ->); [discriminate|]. rewrite last_of_app, app_length. cbn [length].
    rewrite nth_error_app2 by lia. replace (length l0 + 1 - 1 - length l0) with 0 by lia. destruct (Nat.ltb_spec (length l0 + 1) 1); [lia|reflexivity].
  Qed.
  Lemma slice_removelast {A} (l : list A) : slice None (Some (-1)%Z) l = removelast l.
  Proof. change (-1)%Z with (- Z.of_nat 1)%Z. rewrite slice_drop_last by lia. rewrite removelast_firstn_len. f_equal. lia. Qed.
  Lemma last_of_Some {A} (l : list A) : l <> [] -> exists x, last_of l = Some x.
  Proof. intros H. destruct (exists_last H) as (l0 & y & ->). rewrite last_of_app. eauto. Qed.
  Definition next_pair (e : str * details P L) : list (str * (str * P)) :=
    match split_ws (u_space U) (fst e) with
    | [] | [_] => []
    | ts => match last_of ts with Some w => [(spaced (removelast ts), (w, d_proba (snd e)))] | None => [] end
    end.
  Lemma add_next_eq nx e : add_next U P L nx e = fold_left (fun d '(k, v) => append_to_dict_list str_eqb d k v) (next_pair e) nx.
  Proof.
    unfold add_next, next_pair. destruct (split_ws (u_space U) (fst e)) as [|a [|b ts]] eqn:E; [reflexivity|reflexivity|].
    cbn [length]. replace (1 <? S (S (length ts))) with true by reflexivity. rewrite index_last, slice_removelast.
    destruct (last_of_Some (a :: b :: ts)) as (x & Hx); [discriminate|]. rewrite Hx. reflexivity.
  Qed.
  Lemma next_group d : fold_left (add_next U P L) d [] = group str_eqb (flat_map next_pair d).
  Proof.
    unfold group. assert (G : forall nx, fold_left (add_next U P L) d nx = fold_left (fun d '(k, v) => append_to_dict_list str_eqb d k v) (flat_map next_pair d) nx).
    { induction d as [|e d IH]; intros nx; [reflexivity|]. cbn [fold_left flat_map]. rewrite fold_left_app, IH, add_next_eq. reflexivity. }
    apply G.
  Qed.
  Lemma values_conts key d : values_of str_eqb key (flat_map next_pair d) = conts d key.
  Proof.
    unfold values_of, conts. induction d as [|[ng e] d IH]; [reflexivity|]. cbn [flat_map]. rewrite filter_app, map_app, IH. f_equal.
    unfold next_pair. cbn [fst snd]. destruct (split_ws (u_space U) ng) as [|a [|b ts]]; [reflexivity|reflexivity|].
    destruct (last_of_Some (a :: b :: ts)) as (x & Hx); [discriminate|]. rewrite Hx. cbn [filter fst].
    assert (Es : str_eqb key (spaced (removelast (a :: b :: ts))) = str_eqb (spaced (removelast (a :: b :: ts))) key).
    { destruct (str_eqb key (spaced (removelast (a :: b :: ts)))) eqn:Ek; symmetry.
      - apply str_eqb_eq in Ek. rewrite <- Ek. apply str_eqb_refl.
      - apply str_eqb_neq. apply str_eqb_neq in Ek. congruence. }
    rewrite <- Es. destruct (str_eqb key _); reflexivity.
  Qed.
  Lemma lm_next_spec min_counts files m key : load_lm min_counts files = Ok m -> 1 < length min_counts ->
    dget str_eqb key (lm_next m) = match conts (lm_details m) key with [] => None | l => Some (sort_desc P leP snd l) end.
  Proof.
    unfold MLangModel.load_lm. intros H Hl. apply rbind_Ok in H. destruct H as (d & H1 & H2). injection H2 as <-. cbn [lm_next lm_details].
    destruct (Nat.ltb_spec 1 (length min_counts)); [|lia]. rewrite next_group.
    assert (Hm : forall (g : dict str (list (str * P))), dget str_eqb key (map (fun '(k, l) => (k, sort_desc P leP snd l)) g) = option_map (sort_desc P leP snd) (dget str_eqb key g)).
    { clear. induction g as [|[k l] g IH]; [reflexivity|]. cbn. destruct (str_eqb key k); [reflexivity|exact IH]. }
    rewrite Hm. rewrite (proj2 (group_spec str_eqb str_eqb_ok _)). rewrite values_conts.
    destruct (existsb (fun p => str_eqb key (fst p)) (flat_map next_pair d)) eqn:E.
    - apply existsb_exists in E. destruct E as ((k & v) & Hin & E). cbn in E. apply str_eqb_eq in E. subst k.
      assert (Hv : In v (conts d key)). { rewrite <- values_conts. unfold values_of. apply in_map_iff. exists (key, v). split; [reflexivity|]. apply filter_In. split; [exact Hin|apply str_eqb_refl]. }
      destruct (conts d key); [destruct Hv|reflexivity].
    - destruct (conts d key) as [|v r] eqn:Ec; [reflexivity|]. exfalso. assert (Hv : In v (conts d key)) by (rewrite Ec; left; reflexivity).
      rewrite <- values_conts in Hv. unfold values_of in Hv. apply in_map_iff in Hv. destruct Hv as ((k & v') & _ & Hin). apply filter_In in Hin.
      assert (existsb (fun p => str_eqb key (fst p)) (flat_map next_pair d) = true); [|congruence]. apply existsb_exists. exists (k, v'). tauto.
  Qed.
  Lemma slice_last {A} (l : list A) i : 1 <= i -> slice (Some (- Z.of_nat i)%Z) None l = skipn (length l - i) l.
  Proof.
    intros Hi. unfold slice. rewrite firstn_all2 by (rewrite skipn_length; lia). f_equal. unfold clamp.
    destruct (Z.ltb_spec (- Z.of_nat i) 0); lia.
  Qed.
  Lemma next_word_loop_spec min_counts files m tokens limit : load_lm min_counts files = Ok m -> 1 < length min_counts -> total_order leP ->
    forall n, (forall i, 1 <= i <= n -> conts (lm_details m) (spaced (skipn (length tokens - i) tokens)) = []) /\ next_word_loop P L m tokens (limit_z limit) n = [] \/
      exists i l, 1 <= i <= n /\ conts (lm_details m) (spaced (skipn (length tokens - i) tokens)) <> [] /\
        (forall j, i < j <= n -> conts (lm_details m) (spaced (skipn (length tokens - j) tokens)) = []) /\
        by_decreasing leP snd (conts (lm_details m) (spaced (skipn (length tokens - i) tokens))) l /\
        next_word_loop P L m tokens (limit_z limit) n = cut limit l.
  Proof.
    intros H Hl HP. induction n as [|n IH].
    - left. split; [intros; lia|reflexivity].
    - cbn [next_word_loop]. rewrite slice_last by lia. rewrite joinsp_spaced. rewrite (lm_next_spec _ _ _ _ H Hl).
      destruct (conts (lm_details m) (spaced (skipn (length tokens - S n) tokens))) as [|c r] eqn:E.
      + destruct IH as [[IH1 IH2]|(i & l & Hi & Hc & Hj & Hd & Hx)].
        * left. split; [|exact IH2]. intros i Hi. destruct (Nat.eq_dec i (S n)) as [->|]; [exact E|]. apply IH1. lia.
        * right. exists i, l. split; [lia|]. split; [exact Hc|]. split; [|auto]. intros j Hjj. destruct (Nat.eq_dec j (S n)) as [->|]; [exact E|]. apply Hj. lia.
      + right. exists (S n), (sort_desc P leP snd (c :: r)). split; [lia|]. rewrite E. split; [discriminate|]. split; [intros; lia|].
        split; [apply isort_desc_ok; exact HP|]. apply slice_cut.
  Qed.

  Context (leL : L -> L -> bool) (zero : P) (ninf : L) (tokenize : option str -> res (list str)).
  Notation lookup := (lookup P L zero ninf).
  Notation logp := (logp P L zero ninf).
  (** ** best_ngram *)
  Section Best.
  Context (TL : total_order leL) (Hninf : forall x, leL ninf x = true) (Hlog : forall p l, log p = Ok l -> leL l ninf = false).
  Lemma known_finite min_counts files m x : load_lm min_counts files = Ok m -> lm_contains P L m x = true -> leL (logp m x) ninf = false.
  Proof.
    intros H Hx. apply load_lm_ok in H. destruct H as (_ & _ & Hl). unfold MLangModel.logp, MLangModel.lookup. unfold lm_contains, dmem in Hx.
    destruct (dget str_eqb x (lm_details m)) as [e|] eqn:E; [|discriminate]. eapply Hlog. eapply Hl. exact E.
  Qed.
  Lemma unknown_logp m x : lm_contains P L m x = false -> logp m x = ninf.
  Proof. unfold lm_contains, dmem, MLangModel.logp, MLangModel.lookup. destruct (dget str_eqb x (lm_details m)); [discriminate|reflexivity]. Qed.
  Lemma isort_first {A} (le : A -> A -> bool) (l : list A) :
    (forall a b, le a b = true \/ le b a = true) -> (forall a b c, le a b = true -> le b c = true -> le a c = true) ->
    l <> [] -> exists pre x post, l = pre ++ x :: post /\ nth_error (isort le l) 0 = Some x /\ (forall y, In y l -> le x y = true) /\ (forall y, In y pre -> le y x = false).
  Proof.
    intros Ht Htr. induction l as [|a l IH]; intros Hl; [congruence|]. destruct l as [|b l].
    - exists [], a, []. split; [reflexivity|]. split; [reflexivity|]. split; [|intros y []]. intros y [->|[]]. destruct (Ht y y); assumption.
    - destruct IH as (pre & x & post & E & Hx & Hm & Hp); [discriminate|]. change (isort le (a :: b :: l)) with (insert le a (isort le (b :: l))).
      destruct (isort le (b :: l)) as [|z r]; [discriminate|]. cbn in Hx. injection Hx as ->. cbn [insert].
      destruct (le a x) eqn:Eax.
      + exists [], a, (b :: l). split; [reflexivity|]. split; [reflexivity|]. split; [|intros y []].
        intros y [->|Hy]; [destruct (Ht y y); assumption|]. eapply Htr; [exact Eax|]. apply Hm. exact Hy.
      + exists (a :: pre), x, post. split; [rewrite E; reflexivity|]. split; [reflexivity|]. split.
        * intros y [<-|Hy]; [|apply Hm; exact Hy]. destruct (Ht a x); congruence.
        * intros y [<-|Hy]; [exact Eax|apply Hp; exact Hy].
  Qed.
  Lemma best_ngram_spec min_counts files m args : load_lm min_counts files = Ok m ->
    (forall x, In x args -> lm_contains P L m x = false) /\ best_ngram P L leL zero ninf m args = Ok None \/
    exists pre x post, args = pre ++ x :: post /\ best_ngram P L leL zero ninf m args = Ok (Some x) /\ lm_contains P L m x = true /\
      (forall y, In y args -> leL (logp m y) (logp m x) = true) /\ (forall y, In y pre -> leL (logp m x) (logp m y) = false).
  Proof.
    intros H. unfold best_ngram. destruct (existsb (lm_contains P L m) args) eqn:E.
    - right. apply existsb_exists in E. destruct E as (k & Hk & Ek).
      destruct (isort_first (fun x y => leL (snd y) (snd x)) (map (fun ng => (ng, logp m ng)) args)) as (pre & [x lx] & post & El & Hx & Hm & Hp).
      + intros a b. destruct TL as [Ht _]. destruct (Ht (snd b) (snd a)); auto.
      + intros a b c H1 H2. destruct TL as [_ Htr]. eapply Htr; eassumption.
      + destruct args; [destruct Hk|discriminate].
      + assert (Ex : index (isort (fun x y : str * L => leL (snd y) (snd x)) (map (fun ng => (ng, logp m ng)) args)) 0 = Ok (x, lx)).
        { change 0%Z with (Z.of_nat 0). rewrite index_nat. rewrite Hx. reflexivity. }
        rewrite Ex. cbn [rbind fst]. 
        apply map_eq_app in El. destruct El as (pa & pb & -> & E1 & E2). destruct pb as [|x' pb]; [discriminate|]. cbn in E2. injection E2 as -> <- <-.
        exists pa, x, pb. split; [reflexivity|]. split; [reflexivity|].
        assert (Hmax : forall y, In y (pa ++ x :: pb) -> leL (logp m y) (logp m x) = true).
        { intros y Hy. apply (Hm (y, logp m y)). apply in_map_iff. exists y. auto. }
        split; [|split; [exact Hmax|]].
        * destruct (lm_contains P L m x) eqn:Ec; [reflexivity|]. exfalso. specialize (Hmax k Hk). rewrite (unknown_logp m x Ec) in Hmax.
          rewrite (known_finite _ _ _ _ H Ek) in Hmax. discriminate.
        * intros y Hy. apply (Hp (y, logp m y)). rewrite <- E1. apply in_map_iff. exists y. auto.
    - left. split; [|reflexivity]. intros x Hx. apply not_true_is_false. intros Hc. assert (existsb (lm_contains P L m) args = true); [|congruence].
      apply existsb_exists. eauto.
  Qed.

  End Best.

  (** ** best_token *)
  Lemma py_max_spec {A} (le : A -> A -> bool) (l : list A) : total_order le -> l <> [] ->
    exists x, py_max le l = Ok x /\ In x l /\ forall y, In y l -> le y x = true.
  Proof.
    intros [Ht Htr] Hl. destruct l as [|a l]; [congruence|]. cbn [py_max].
    assert (G : forall l a, let x := fold_left (fun m y => if le y m then m else y) l a in
      In x (a :: l) /\ le a x = true /\ forall y, In y l -> le y x = true).
    { clear - Ht Htr. induction l as [|b l IH]; intros a; cbn [fold_left].
      - split; [left; reflexivity|]. split; [destruct (Ht a a); assumption|]. intros y [].
      - destruct (le b a) eqn:E.
        + destruct (IH a) as (H1 & H2 & H3). split; [destruct H1 as [H1|H1]; [left; exact H1|right; right; exact H1]|]. split; [exact H2|].
          intros y [<-|Hy]; [eapply Htr; eassumption|apply H3; exact Hy].
        + destruct (IH b) as (H1 & H2 & H3). assert (Hab : le a b = true) by (destruct (Ht a b); congruence).
          split; [right; exact H1|]. split; [eapply Htr; eassumption|]. intros y [<-|Hy]; [exact H2|apply H3; exact Hy]. }
    destruct (G l a) as (H1 & H2 & H3). eexists. split; [reflexivity|]. split; [exact H1|]. intros y [<-|Hy]; [exact H2|apply H3; exact Hy].
  Qed.

  Context (TL : total_order leL) (AL : antisym leL).
  Lemma leT_refl x : leT L leL x x = true.
  Proof. induction x as [|a x IH]; [reflexivity|]. cbn. destruct TL as [Ht _]. assert (leL a a = true) by (destruct (Ht a a); assumption). rewrite H. exact IH. Qed.
  Lemma leT_antisym x : forall y, leT L leL x y = true -> leT L leL y x = true -> x = y.
  Proof.
    induction x as [|a x IH]; intros [|b y]; cbn; try discriminate; [reflexivity|].
    destruct (leL a b) eqn:E1, (leL b a) eqn:E2; try discriminate. intros H1 H2. f_equal; [apply AL; assumption|apply IH; assumption].
  Qed.
  Lemma leT_total x : forall y, leT L leL x y = true \/ leT L leL y x = true.
  Proof.
    induction x as [|a x IH]; intros [|b y]; cbn; auto. destruct TL as [Ht _]. destruct (leL a b) eqn:E1, (leL b a) eqn:E2; auto. destruct (Ht a b); congruence.
  Qed.
  Lemma leT_trans x : forall y z, leT L leL x y = true -> leT L leL y z = true -> leT L leL x z = true.
  Proof.
    destruct TL as [Ht Htr]. induction x as [|a x IH]; intros [|b y] [|c z]; cbn; auto; try discriminate.
    destruct (leL a b) eqn:E1; [|discriminate]. destruct (leL b c) eqn:E2; [|discriminate]. rewrite (Htr _ _ _ E1 E2).
    destruct (leL c a) eqn:E3; [|reflexivity].
    rewrite (Htr _ _ _ E2 E3), (Htr _ _ _ E3 E1). apply IH.
  Qed.
  Lemma leT_order : total_order (leT L leL).
  Proof. split; [intros; apply leT_total|intros a b c; apply leT_trans]. Qed.
  Lemma eqT_ok : eqb_ok (eqT L leL).
  Proof.
    intros x y. unfold eqT. rewrite andb_true_iff. split; [intros [H1 H2]; apply leT_antisym; assumption|intros ->; split; apply leT_refl].
  Qed.
  Lemma leT_lex x : forall y, length x = length y -> (leT L leL x y = true <-> lex_le leL x y).
  Proof.
    induction x as [|a x IH]; intros [|b y] Hl; cbn in Hl; try discriminate.
    - split; [constructor|reflexivity].
    - injection Hl as Hl. cbn. split.
      + destruct (leL a b) eqn:E1; [|discriminate]. destruct (leL b a) eqn:E2; intros H.
        * rewrite (AL _ _ E1 E2). apply lex_eq. apply IH; assumption.
        * apply lex_lt; assumption.
      + intros H. inversion H; subst.
        * destruct TL as [Ht _]. destruct (Ht a b) as [E|E]; [rewrite E|congruence]. destruct (leL b a); [congruence|reflexivity].
        * assert (E : leL b b = true) by (destruct TL as [Ht _]; destruct (Ht b b); assumption). rewrite E. apply IH; assumption.
  Qed.

  Lemma enum_from_app {A} (l : list A) x : forall n, enum_from n (l ++ [x]) = enum_from n l ++ [(n + length l, x)].
  Proof. induction l as [|y l IH]; intros n; cbn; [rewrite Nat.add_0_r; reflexivity|]. rewrite IH, Nat.add_succ_r. reflexivity. Qed.
  Lemma last_scores (scores : list (list L)) : let d := fold_left (fun d '(i, k) => dset (eqT L leL) k i d) (enumerate scores) [] in
    (forall k, In k (dkeys d) <-> In k scores) /\
    forall k i, dget (eqT L leL) k d = Some i -> nth_error scores i = Some k /\ forall j, i < j -> nth_error scores j <> Some k.
  Proof.
    induction scores as [|k0 l IH] using rev_ind; [split; [reflexivity|discriminate]|].
    assert (E : enumerate (l ++ [k0]) = enumerate l ++ [(length l, k0)]).
    { exact (enum_from_app l k0 0). }
    rewrite E, fold_left_app. cbn [fold_left]. cbv zeta in *. destruct IH as [IH1 IH2]. set (d := fold_left _ (enumerate l) []) in *. clearbody d.
    split.
    - intros k. rewrite (In_dkeys_dset _ eqT_ok). rewrite in_app_iff, IH1. cbn. split; [intros [->|H]; auto|intros [H|[H|[]]]; auto].
    - intros k i. rewrite (dget_dset _ eqT_ok). destruct (eqT L leL k k0) eqn:Ek.
      + apply eqT_ok in Ek. subst k0. intros H. injection H as <-. split; [rewrite nth_error_app2, Nat.sub_diag by lia; reflexivity|].
        intros j Hj. rewrite (proj2 (nth_error_None _ _)); [discriminate|]. rewrite app_length. cbn. lia.
      + intros H. destruct (IH2 k i H) as [H1 H2]. assert (Hi : i < length l) by (apply nth_error_Some; congruence).
        split; [rewrite nth_error_app1 by exact Hi; exact H1|]. intros j Hj. destruct (Nat.lt_ge_cases j (length l)) as [Hjl|Hjl].
        * rewrite nth_error_app1 by exact Hjl. apply H2. exact Hj.
        * rewrite nth_error_app2 by exact Hjl. destruct (j - length l) as [|q]; [cbn; intros F; injection F as ->; rewrite (eqb_ok_refl _ eqT_ok) in Ek; discriminate|destruct q; discriminate].
  Qed.

  Notation best_of := (fun m => best_of leL ninf (logp m)).
  Notation scores_of := (fun m before after t => token_scores leL ninf (logp m) (fun n c => candidates {| tc_token := t; tc_before := before; tc_after := after |} n = Ok c) (lm_max_order m) t).
  Lemma logps_spec m before after t : exists ks, logps P L leL zero ninf m {| tc_token := t; tc_before := before; tc_after := after |} = Ok ks /\
    scores_of m before after t ks /\ length ks = lm_max_order m - 1 + 1.
  Proof.
    unfold logps, down_to_2. set (tc := {| tc_token := t; tc_before := before; tc_after := after |}).
    set (f := fun i => let! c := candidates tc i in match c with [] => Ok ninf | _ => py_max leL (map (logp m) c) end).
    assert (Hf : forall n, 2 <= n -> exists cands s, candidates tc n = Ok cands /\ f n = Ok s /\ best_of m cands s).
    { intros n Hn. destruct (candidates_sound tc n Hn) as (cands & Hc & _). exists cands. unfold f. rewrite Hc. cbn [rbind]. destruct cands as [|c0 cs].
      - exists ninf. split; [reflexivity|]. split; [reflexivity|]. left. auto.
      - destruct (py_max_spec leL (map (logp m) (c0 :: cs)) TL) as (x & Hx & Hin & Hmax); [discriminate|]. exists x. split; [reflexivity|]. split; [exact Hx|].
        right. apply in_map_iff in Hin. destruct Hin as (c & <- & Hcin). exists c. split; [exact Hcin|]. split; [reflexivity|]. intros c' Hc'. apply Hmax. apply in_map. exact Hc'. }
    assert (HM : forall l, Forall (fun n => 2 <= n) l -> exists hs, mapM f l = Ok hs /\
      Forall2 (fun n s => exists cands, candidates tc n = Ok cands /\ best_of m cands s) l hs).
    { induction l as [|n l IH]; intros HF; [exists []; split; [reflexivity|constructor]|]. inversion HF; subst. destruct (IH H2) as (hs & E & HF2).
      destruct (Hf n H1) as (cands & s & E1 & E2 & E3). exists (s :: hs). cbn [mapM]. rewrite E2, E. cbn. split; [reflexivity|]. constructor; [|exact HF2]. eauto. }
    destruct (HM (rev (seq 2 (lm_max_order m - 1)))) as (hs & E & HF2).
    { apply Forall_forall. intros n Hn. apply in_rev in Hn. apply in_seq in Hn. lia. }
    rewrite E. cbn [rbind]. eexists. split; [reflexivity|]. split.
    - exists hs. split; [reflexivity|]. exact HF2.
    - apply Forall2_len in HF2. rewrite app_length, <- HF2, rev_length, seq_length. reflexivity.
  Qed.
  Lemma best_token_spec m tokens before after tb ta : tokenize before = Ok tb -> tokenize after = Ok ta ->
    (forall x, In x tokens -> lm_contains P L m x = false) /\ best_token P L leL zero ninf tokenize m tokens before after = Ok None \/
    (exists x, In x tokens /\ lm_contains P L m x = true) /\
    exists pre x post sx, tokens = pre ++ x :: post /\ best_token P L leL zero ninf tokenize m tokens before after = Ok (Some x) /\
      scores_of m tb ta x sx /\
      (forall y, In y tokens -> exists sy, scores_of m tb ta y sy /\ lex_le leL sy sx) /\
      (forall y, In y post -> exists sy, scores_of m tb ta y sy /\ ~ lex_le leL sx sy).
  Proof.
    intros Htb Hta. unfold best_token. destruct (existsb (lm_contains P L m) tokens) eqn:Ex.
    2:{ left. split; [|reflexivity]. intros x Hx. apply not_true_is_false. intros Hc. assert (existsb (lm_contains P L m) tokens = true); [|congruence]. apply existsb_exists. eauto. }
    right. apply existsb_exists in Ex. split; [exact Ex|]. rewrite Htb, Hta. cbn [rbind].
    set (lp := fun t => logps P L leL zero ninf m {| tc_token := t; tc_before := tb; tc_after := ta |}).
    assert (HM : exists scores, mapM lp tokens = Ok scores /\ Forall2 (fun t s => scores_of m tb ta t s /\ length s = lm_max_order m - 1 + 1) tokens scores).
    { clear Ex. induction tokens as [|t ts IH]; [exists []; split; [reflexivity|constructor]|]. destruct IH as (ss & E & HF).
      destruct (logps_spec m tb ta t) as (ks & E1 & E2 & E3). exists (ks :: ss). cbn [mapM]. unfold lp at 1. rewrite E1, E. cbn. split; [reflexivity|]. constructor; auto. }
    destruct HM as (scores & HM & HF).
    assert (Hfold : foldM (fun d '(idx, t) => let! k := lp t in Ok (dset (eqT L leL) k idx d)) [] (enumerate tokens) =
      Ok (fold_left (fun d '(i, k) => dset (eqT L leL) k i d) (enumerate scores) [])).
    { clear - HM. unfold enumerate. generalize (@nil (list L * nat)) as d. generalize 0. revert scores HM. induction tokens as [|t ts IH]; intros scores HM n d.
      - cbn in HM. injection HM as <-. reflexivity.
      - cbn [mapM] in HM. destruct (lp t) as [k|] eqn:E; [|discriminate]. cbn [rbind] in HM. apply rbind_Ok in HM. destruct HM as (ss & H1 & H2). injection H2 as <-.
        cbn [enum_from foldM fold_left]. rewrite E. cbn [rbind]. apply IH. exact H1. }
    unfold lp in Hfold. rewrite Hfold. cbn [rbind].
    destruct (last_scores scores) as [HK HG]. set (d := fold_left _ (enumerate scores) []) in *. clearbody d. clear Hfold.
    destruct (py_max_spec (leT L leL) (dkeys d) leT_order) as (k & Hk & Hin & Hmax).
    { destruct Ex as (x & Hx & _). intros E. destruct scores as [|k0 ss]; [apply Forall2_len in HF; destruct tokens; [destruct Hx|discriminate]|].
      assert (In k0 (dkeys d)) by (apply HK; left; reflexivity). rewrite E in H. destruct H. }
    rewrite Hk. cbn [rbind]. apply (dget_Some_key _ eqT_ok) in Hin. destruct Hin as (i & Hi). rewrite Hi. cbn [of_option rbind].
    destruct (HG k i Hi) as [Hn Hlast]. rewrite index_nat.
    assert (Hti : exists t, nth_error tokens i = Some t /\ scores_of m tb ta t k /\ length k = lm_max_order m - 1 + 1).
    { clear - HF Hn. revert i Hn. induction HF as [|t s ts ss [H1 H2] HF IH]; intros i Hn; [destruct i; discriminate|]. destruct i; cbn in *; [injection Hn as ->; eauto|apply IH; exact Hn]. }
    destruct Hti as (x & Hx & Hsx & Hlx). rewrite Hx. cbn [of_option rbind].
    destruct (nth_error_split _ _ Hx) as (pre & post & Et & Hpre). exists pre, x, post, k. split; [exact Et|]. split; [reflexivity|]. split; [exact Hsx|].
    assert (Hall : forall j y, nth_error tokens j = Some y -> exists sy, scores_of m tb ta y sy /\ length sy = lm_max_order m - 1 + 1 /\ nth_error scores j = Some sy).
    { clear - HF. induction HF as [|t s ts ss [H1 H2] HF IH]; intros j y Hy; [destruct j; discriminate|]. destruct j; cbn in *; [injection Hy as ->; eauto|apply IH; exact Hy]. }
    split.
    - intros y Hy. apply In_nth_error in Hy. destruct Hy as [j Hj]. destruct (Hall j y Hj) as (sy & H1 & H2 & H3). exists sy. split; [exact H1|].
      apply leT_lex; [congruence|]. apply Hmax. apply HK. eapply nth_error_In. exact H3.
    - intros y Hy. apply In_nth_error in Hy. destruct Hy as [q Hq]. assert (Hj : nth_error tokens (i + S q) = Some y).
      { rewrite Et, nth_error_app2 by lia. replace (i + S q - length pre) with (S q) by lia. exact Hq. }
      destruct (Hall _ y Hj) as (sy & H1 & H2 & H3). exists sy. split; [exact H1|]. intros Hle. apply leT_lex in Hle; [|congruence].
      assert (Hle2 : leT L leL sy k = true) by (apply Hmax; apply HK; eapply nth_error_In; exact H3).
      pose proof (leT_antisym _ _ Hle Hle2) as E. subst sy. apply (Hlast (i + S q)); [lia|exact H3].
  Qed.
End LMLemmas.
