(** Lemmas about the smoothers: distribution of the work, maximum likelihood. *)
From Coq Require Import Ascii String.
From Coq Require Import List NArith ZArith QArith Arith Bool Lia.
From Verif Require Import PyBase Regex MUtils SUtils LBase LText LUtils LRanges MNgram SLangModel MSmooth.
Import ListNotations.
Local Open Scope nat_scope.

Lemma mapM_concat {A B} (f : A -> res B) (ls : list (list A)) xs : mapM f (concat ls) = Ok xs ->
  exists yss, mapM (mapM f) ls = Ok yss /\ concat yss = xs.
Proof.
  revert xs. induction ls as [|l ls IH]; intros xs H.
  - cbn in H. injection H as <-. exists []. auto.
  - cbn [concat] in H. rewrite mapM_app in H. apply rbind_Ok in H. destruct H as (a & Ha & H). apply rbind_Ok in H. destruct H as (b & Hb & H).
    destruct (IH _ Hb) as (yss & E1 & E2). exists (a :: yss). cbn [mapM]. rewrite Ha, E1. cbn. split; [reflexivity|]. rewrite E2. injection H as <-. reflexivity.
Qed.
Lemma fold_left_concat {A} (ls : list (list A)) : forall acc, fold_left (fun acc x => acc ++ x) ls acc = acc ++ concat ls.
Proof. induction ls as [|l ls IH]; intros acc; cbn; [rewrite app_nil_r; reflexivity|]. rewrite IH, app_assoc. reflexivity. Qed.
Lemma calc_multithread_ok {S} (slices : list S) (calc : S -> res (list Q)) nb outs : slices <> [] -> (1 <= nb)%Z ->
  (Z.of_nat (length slices) <= 2 ^ 53)%Z -> mapM calc slices = Ok outs -> calc_ngrams_multithread slices calc nb = Ok (concat outs).
Proof.
  intros Hs Hn Hl H. unfold calc_ngrams_multithread. rewrite (run_multithreads_total _ _ _ _ Hn Hl H). cbn [rbind].
  pose proof (mapM_length _ _ _ H) as E. destruct outs as [|o outs]; [destruct slices; [congruence|discriminate]|].
  change (index (o :: outs) 0) with (@Ok (list Q) o). cbn [rbind]. f_equal. change 1%Z with (Z.of_nat 1). rewrite slice_from. cbn [skipn]. apply fold_left_concat.
Qed.

(** distribution of a computation over slices of the indexes *)
Lemma ranges_mapM {A} (f : nat -> res A) len n xs : 1 <= n -> (Z.of_nat n <= 2 ^ 53)%Z -> (Z.of_nat len <= 2 ^ 53)%Z ->
  mapM f (seq 0 len) = Ok xs -> exists slices, mapM (mapM f) (process_ranges len (Z.of_nat n)) = Ok slices /\ concat slices = xs /\ length slices = n.
Proof.
  intros Hn Hn2 Hl H. rewrite <- (process_ranges_cover len n Hn Hn2 Hl) in H. destruct (mapM_concat _ _ _ H) as (yss & E1 & E2).
  exists yss. split; [exact E1|]. split; [exact E2|]. rewrite (mapM_length _ _ _ E1). apply process_ranges_length. exact Hn.
Qed.
Lemma mapM_nth {A} (l : list A) : mapM (fun i => of_option IndexError (nth_error l i)) (seq 0 (length l)) = Ok l.
Proof.
  assert (G : forall l pre : list A, mapM (fun i => of_option IndexError (nth_error (pre ++ l) i)) (seq (length pre) (length l)) = Ok l).
  { clear. induction l as [|x l IH]; intros pre; [reflexivity|]. cbn [length seq mapM]. rewrite nth_error_app2, Nat.sub_diag by lia. cbn [nth_error of_option rbind].
    specialize (IH (pre ++ [x])). rewrite app_length, <- app_assoc in IH. cbn [length app] in IH. rewrite Nat.add_1_r in IH. rewrite IH. reflexivity. }
  apply (G l []).
Qed.
Lemma mapM_bind_nth {A B} (l : list A) (g : A -> res B) ys : mapM g l = Ok ys ->
  mapM (fun i => let! x := of_option IndexError (nth_error l i) in g x) (seq 0 (length l)) = Ok ys.
Proof.
  intros H. assert (G : forall l pre ys, mapM g l = Ok ys -> mapM (fun i => let! x := of_option IndexError (nth_error (pre ++ l) i) in g x) (seq (length pre) (length l)) = Ok ys).
  { clear. induction l as [|x l IH]; intros pre ys H; [exact H|]. cbn [length seq mapM] in *. rewrite nth_error_app2, Nat.sub_diag by lia. cbn [nth_error of_option rbind].
    apply rbind_Ok in H. destruct H as (y & Hy & H). apply rbind_Ok in H. destruct H as (zs & Hz & H). rewrite Hy. cbn [rbind].
    specialize (IH (pre ++ [x]) zs Hz). rewrite app_length, <- app_assoc in IH. cbn [length app] in IH. rewrite Nat.add_1_r in IH. rewrite IH. exact H. }
  apply (G l [] ys H).
Qed.
Lemma assign_probas_ok ns ps : length ps = length ns -> assign_probas ns ps = Ok (map (fun '(n, p) => set_proba n p) (combine ns ps)).
Proof.
  revert ps. induction ns as [|n ns IH]; intros [|p ps] H; try discriminate; [reflexivity|]. cbn in *. rewrite IH by lia. reflexivity.
Qed.
Lemma combine_map_r {A B} (f : A -> B) l : combine l (map f l) = map (fun x => (x, f x)) l.
Proof. induction l; cbn; congruence. Qed.
Lemma assign_probas_map ns (f : ngram -> Q) : assign_probas ns (map f ns) = Ok (map (fun n => set_proba n (f n)) ns).
Proof. rewrite assign_probas_ok by apply map_length. rewrite combine_map_r, map_map. reflexivity. Qed.
Lemma mapM_map {A B C} (f : B -> res C) (g : A -> B) l : mapM f (map g l) = mapM (fun x => f (g x)) l.
Proof. induction l; cbn; [reflexivity|]. rewrite IHl. reflexivity. Qed.

Lemma Qn_pos n : 0 < n -> (0 < Qn n)%Q.
Proof. intros H. unfold Qn, Qlt. cbn. lia. Qed.
Lemma Qn_nonneg n : (0 <= Qn n)%Q.
Proof. unfold Qn, Qle. cbn. lia. Qed.
Lemma Qn_le a b : a <= b -> (Qn a <= Qn b)%Q.
Proof. intros H. unfold Qn, Qle. cbn. lia. Qed.
Lemma Qn_add a b : (Qn (a + b) == Qn a + Qn b)%Q.
Proof. unfold Qn. rewrite Nat2Z.inj_add, inject_Z_plus. reflexivity. Qed.
Lemma Qn_0 : Qn 0 = 0%Q. Proof. reflexivity. Qed.
Lemma qdiv_pos x y : (0 < y)%Q -> qdiv x y = Ok (x / y)%Q.
Proof. intros H. unfold qdiv. destruct (Qeq_bool y 0) eqn:E; [|reflexivity]. apply Qeq_bool_iff in E. rewrite E in H. exfalso. apply (Qlt_irrefl 0). exact H. Qed.

Section MLE.
  Context (U : udb).
  Definition of_order (o : nat) (ngrams : list ngram) : list ngram := filter (fun n => ng_order U n =? o) ngrams.
  Definition total (o : nat) (ngrams : list ngram) : nat := list_sum (map ng_count (of_order o ngrams)).
  Lemma of_order_app o l1 l2 : of_order o (l1 ++ l2) = of_order o l1 ++ of_order o l2.
  Proof. apply filter_app. Qed.
  Lemma dget_init o last : dget Nat.eqb o (map (fun o => (o, 0)) (seq 1 last)) = if (1 <=? o) && (o <=? last) then Some 0 else None.
  Proof.
    assert (G : forall k a, dget Nat.eqb o (map (fun o => (o, 0)) (seq a k)) = if (a <=? o) && (o <? a + k) then Some 0 else None).
    { induction k as [|k IH]; intros a; cbn [seq map dget].
      - destruct (Nat.leb_spec a o); destruct (Nat.ltb_spec o (a + 0)); try reflexivity; lia.
      - destruct (Nat.eqb_spec o a) as [->|H].
        + destruct (Nat.leb_spec a a); [|lia]. destruct (Nat.ltb_spec a (a + S k)); [reflexivity|lia].
        + rewrite IH. destruct (Nat.leb_spec (S a) o), (Nat.leb_spec a o), (Nat.ltb_spec o (S a + k)), (Nat.ltb_spec o (a + S k)); try reflexivity; lia. }
    rewrite G. destruct (Nat.leb_spec 1 o), (Nat.leb_spec o last), (Nat.ltb_spec o (1 + last)); try reflexivity; lia.
  Qed.
  Lemma group_orders ngrams o : dget Nat.eqb o (group Nat.eqb (map (fun n => (ng_order U n, n)) ngrams)) =
    match of_order o ngrams with [] => None | l => Some l end.
  Proof.
    rewrite (proj2 (group_spec Nat.eqb nateqb_ok _)).
    assert (Ev : values_of Nat.eqb o (map (fun n => (ng_order U n, n)) ngrams) = of_order o ngrams).
    { unfold values_of, of_order. induction ngrams as [|n l IH]; [reflexivity|]. cbn [map filter fst]. rewrite (Nat.eqb_sym o). destruct (ng_order U n =? o); cbn [map snd]; congruence. }
    rewrite Ev. assert (Ee : existsb (fun p : nat * ngram => o =? fst p) (map (fun n => (ng_order U n, n)) ngrams) = negb (match of_order o ngrams with [] => true | _ => false end)).
    { clear Ev. unfold of_order. induction ngrams as [|n l IH]; [reflexivity|]. cbn [map filter existsb fst]. rewrite (Nat.eqb_sym o). destruct (ng_order U n =? o); [reflexivity|exact IH]. }
    rewrite Ee. destruct (of_order o ngrams); reflexivity.
  Qed.
  Lemma mle_init_ok last ngrams : Forall (fun n => 1 <= ng_order U n <= last) ngrams ->
    exists totals, mle_init U ngrams last = Ok (group Nat.eqb (map (fun n => (ng_order U n, n)) ngrams), totals) /\
      forall o, dget Nat.eqb o totals = if (1 <=? o) && (o <=? last) then Some (total o ngrams) else None.
  Proof.
    induction ngrams as [|n l IH] using rev_ind; intros H.
    - eexists. split; [reflexivity|]. intros o. apply dget_init.
    - apply Forall_app in H. destruct H as [H1 H2]. inversion H2; subst. destruct (IH H1) as (totals & E & HT). unfold mle_init in *. rewrite foldM_app, E. cbn [rbind foldM].
      rewrite HT. destruct (Nat.leb_spec 1 (ng_order U n)), (Nat.leb_spec (ng_order U n) last); try lia. cbn [andb of_option rbind]. eexists. split.
      + unfold group. rewrite map_app, fold_left_app. reflexivity.
      + intros o. rewrite (dget_dset _ nateqb_ok). rewrite HT. unfold total. rewrite of_order_app, map_app, list_sum_app. change (of_order o [n]) with (if ng_order U n =? o then [n] else []).
        rewrite (Nat.eqb_sym (ng_order U n) o). destruct (Nat.eqb_spec o (ng_order U n)) as [->|Hne]; cbn [map list_sum].
        * destruct (Nat.leb_spec 1 (ng_order U n)), (Nat.leb_spec (ng_order U n) last); try lia. cbn. rewrite Nat.add_0_r. reflexivity.
        * cbn. rewrite Nat.add_0_r. reflexivity.
  Qed.
  Definition mle_new (ngrams : list ngram) (o : nat) : list ngram :=
    map (fun n => set_proba n (Qn (ng_count n) / Qn (total o ngrams))%Q) (of_order o ngrams).
  Lemma total_pos o ngrams : Forall (fun n => 1 <= ng_count n) ngrams -> of_order o ngrams <> [] -> 0 < total o ngrams.
  Proof.
    intros H Hne. unfold total. assert (HF : Forall (fun n => 1 <= ng_count n) (of_order o ngrams)).
    { apply Forall_forall. intros n Hn. apply filter_In in Hn. rewrite Forall_forall in H. apply H. tauto. }
    destruct (of_order o ngrams) as [|n l]; [congruence|]. inversion HF; subst. cbn. lia.
  Qed.
  Lemma of_order_length o ngrams : length (of_order o ngrams) <= length ngrams.
  Proof. unfold of_order. induction ngrams as [|n l IH]; [cbn; lia|]. cbn. destruct (ng_order U n =? o); cbn; lia. Qed.
  Lemma mle_order_ok nb last ngrams totals d o : (1 <= nb) -> (Z.of_nat nb <= 2 ^ 53)%Z -> (Z.of_nat (length ngrams) <= 2 ^ 53)%Z ->
    Forall (fun n => 1 <= ng_count n) ngrams -> of_order o ngrams <> [] -> 1 <= o <= last ->
    (forall o, dget Nat.eqb o totals = if (1 <=? o) && (o <=? last) then Some (total o ngrams) else None) ->
    dget Nat.eqb o d = Some (of_order o ngrams) ->
    mle_order (Z.of_nat nb) totals d o = Ok (dset Nat.eqb o (mle_new ngrams o) d).
  Proof.
    intros Hnb Hnb2 Hlen Hc Hne Ho HT Hd. unfold mle_order, get_order. rewrite Hd. cbn [of_option rbind].
    assert (Hto : dget Nat.eqb o totals = Some (total o ngrams)) by (rewrite HT; destruct (Nat.leb_spec 1 o), (Nat.leb_spec o last); try lia; reflexivity).
    rewrite Hto. cbn [of_option rbind]. set (l := of_order o ngrams) in *. assert (Hl : length l <= length ngrams) by apply of_order_length.
    destruct (ranges_mapM (fun i => let! n := of_option IndexError (nth_error l i) in Ok (Qn (ng_count n))) (length l) nb (map (fun n => Qn (ng_count n)) l) Hnb Hnb2) as (slices & E1 & E2 & E3); [lia| |].
    { apply mapM_bind_nth. apply mapM_total. reflexivity. }
    rewrite E1. cbn [rbind].
    assert (Hp : (0 < Qn (total o ngrams))%Q) by (apply Qn_pos; apply total_pos; assumption).
    destruct (mapM_concat (fun c => qdiv c (Qn (total o ngrams))) slices (map (fun n => (Qn (ng_count n) / Qn (total o ngrams))%Q) l)) as (outs & E4 & E5).
    { rewrite E2, mapM_map. apply mapM_total. intros n _. apply qdiv_pos. exact Hp. }
    erewrite calc_multithread_ok; [|destruct slices; [cbn in E3; lia|discriminate]|lia|lia|exact E4]. cbn [rbind]. rewrite E5.
    rewrite assign_probas_map. reflexivity.
  Qed.
  Lemma mle_ok nb last ngrams : 1 <= nb -> (Z.of_nat nb <= 2 ^ 53)%Z -> (Z.of_nat (length ngrams) <= 2 ^ 53)%Z ->
    Forall (fun n => 1 <= ng_order U n <= last /\ 1 <= ng_count n) ngrams -> (forall o, 1 <= o <= last -> of_order o ngrams <> []) ->
    exists d, mle_smoother U ngrams last (Z.of_nat nb) = Ok d /\ forall o, 1 <= o <= last -> dget Nat.eqb o d = Some (mle_new ngrams o).
  Proof.
    intros Hnb Hnb2 Hlen HF Hall. assert (HF1 : Forall (fun n => 1 <= ng_order U n <= last) ngrams) by (eapply Forall_impl; [|exact HF]; cbn; tauto).
    assert (HF2 : Forall (fun n => 1 <= ng_count n) ngrams) by (eapply Forall_impl; [|exact HF]; cbn; tauto).
    destruct (mle_init_ok last ngrams HF1) as (totals & E & HT). unfold mle_smoother. rewrite E. cbn [rbind]. clear E.
    assert (Hg : forall o, 1 <= o <= last -> dget Nat.eqb o (group Nat.eqb (map (fun n => (ng_order U n, n)) ngrams)) = Some (of_order o ngrams)).
    { intros o Ho. rewrite group_orders. specialize (Hall o Ho). destruct (of_order o ngrams); [congruence|reflexivity]. }
    set (d0 := group Nat.eqb (map (fun n => (ng_order U n, n)) ngrams)) in *. clearbody d0.
    assert (G : forall k a d, 1 <= a -> a + k = S last ->
      (forall o, 1 <= o <= last -> dget Nat.eqb o d = Some (if o <? a then mle_new ngrams o else of_order o ngrams)) ->
      exists d', foldM (mle_order (Z.of_nat nb) totals) d (seq a k) = Ok d' /\ forall o, 1 <= o <= last -> dget Nat.eqb o d' = Some (mle_new ngrams o)).
    { induction k as [|k IH]; intros a d Ha Hk Hd.
      - exists d. split; [reflexivity|]. intros o Ho. rewrite Hd by exact Ho. destruct (Nat.ltb_spec o a); [reflexivity|lia].
      - cbn [seq foldM]. rewrite (mle_order_ok nb last ngrams totals d a Hnb Hnb2 Hlen HF2); [|apply Hall; lia|lia|exact HT|].
        + cbn [rbind]. apply IH; [lia|lia|]. intros o Ho. rewrite (dget_dset _ nateqb_ok). destruct (Nat.eqb_spec o a) as [->|Hne].
          * destruct (Nat.ltb_spec a (S a)); [reflexivity|lia].
          * rewrite Hd by exact Ho. destruct (Nat.ltb_spec o a), (Nat.ltb_spec o (S a)); try reflexivity; lia.
        + rewrite Hd by lia. destruct (Nat.ltb_spec a a); [lia|reflexivity]. }
    apply G; [lia|lia|]. intros o Ho. destruct (Nat.ltb_spec o 1); [lia|]. apply Hg. exact Ho.
  Qed.
  Lemma mle_missing nb last ngrams o : 1 <= nb -> (Z.of_nat nb <= 2 ^ 53)%Z -> (Z.of_nat (length ngrams) <= 2 ^ 53)%Z ->
    Forall (fun n => 1 <= ng_order U n <= last /\ 1 <= ng_count n) ngrams -> 1 <= o <= last -> of_order o ngrams = [] ->
    mle_smoother U ngrams last (Z.of_nat nb) = Err KeyError.
  Proof.
    intros Hnb Hnb2 Hlen HF Ho Hno. assert (HF1 : Forall (fun n => 1 <= ng_order U n <= last) ngrams) by (eapply Forall_impl; [|exact HF]; cbn; tauto).
    assert (HF2 : Forall (fun n => 1 <= ng_count n) ngrams) by (eapply Forall_impl; [|exact HF]; cbn; tauto).
    destruct (mle_init_ok last ngrams HF1) as (totals & E & HT). unfold mle_smoother. rewrite E. cbn [rbind]. clear E.
    assert (G : forall k a d, 1 <= a <= o -> a + k = S last ->
      (forall o', a <= o' -> dget Nat.eqb o' d = match of_order o' ngrams with [] => None | l => Some l end) ->
      foldM (mle_order (Z.of_nat nb) totals) d (seq a k) = Err KeyError).
    { induction k as [|k IH]; intros a d Ha Hk Hd; [lia|]. cbn [seq foldM]. destruct (of_order a ngrams) as [|n l] eqn:Ea.
      - unfold mle_order, get_order. rewrite Hd by lia. rewrite Ea. reflexivity.
      - assert (Hne : a <> o) by (intros ->; congruence).
        rewrite (mle_order_ok nb last ngrams totals d a Hnb Hnb2 Hlen HF2); [|congruence|lia|exact HT|].
        + cbn [rbind]. apply IH; [lia|lia|]. intros o' Ho'. rewrite (dget_dset _ nateqb_ok). destruct (Nat.eqb_spec o' a); [lia|]. apply Hd. lia.
        + rewrite Hd by lia. rewrite Ea. reflexivity. }
    apply G; [lia|lia|]. intros o' _. apply group_orders.
  Qed.
End MLE.

Lemma qsum_scale (l : list nat) (t : Q) : ~ (t == 0)%Q -> (qsum_list (map (fun c => Qn c / t) l) == Qn (list_sum l) / t)%Q.
Proof.
  intros H. induction l as [|c l IH].
  - cbn. rewrite Qn_0. field. exact H.
  - change (qsum_list (map (fun c => Qn c / t)%Q (c :: l))) with (Qn c / t + qsum_list (map (fun c => Qn c / t) l))%Q. rewrite IH. cbn [list_sum fold_right].
    change (fold_right Nat.add 0 l) with (list_sum l). rewrite Qn_add. field. exact H.
Qed.
