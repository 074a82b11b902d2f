(** Bounds of the Kneser-Ney values. *)
From Coq Require Import Ascii String.
From Coq Require Import List NArith ZArith QArith Qminmax Arith Bool Lia Lqa.
From Verif Require Import PyBase Regex MUtils SUtils LBase LText LUtils MNgram SLangModel LNgram LLangModel MSmooth LSmooth LCorpus LMkn LMkn2.
Import ListNotations.
Local Open Scope nat_scope.

Lemma removelast_firstn_S {A} n (l : list A) : n < length l -> removelast (firstn (S n) l) = firstn n l.
Proof. intros H. rewrite removelast_firstn_len, firstn_length, firstn_firstn. f_equal. lia. Qed.
Lemma map_removelast' {A B} (f : A -> B) l : map f (removelast l) = removelast (map f l).
Proof. rewrite !removelast_firstn_len, map_length, firstn_map. reflexivity. Qed.
Lemma forallb_firstn {A} (p : A -> bool) n l : forallb p l = true -> forallb p (firstn n l) = true.
Proof. rewrite !forallb_forall. intros H x Hx. apply H. rewrite <- (firstn_skipn n l). apply in_or_app. left. exact Hx. Qed.
Lemma Qn_sum_pos (l : list nat) : (0 <= Qn (list_sum l))%Q. Proof. apply Qn_nonneg. Qed.

Lemma filter_filter_and {A} (p q : A -> bool) l : filter p (filter q l) = filter (fun x => q x && p x) l.
Proof. induction l as [|x l IH]; [reflexivity|]. cbn. destruct (q x); cbn; [destruct (p x); cbn; congruence|exact IH]. Qed.

Section Kn.
  Context (U : udb) (tts : list (list (list str))).
  Notation sents := (sents tts).
  Notation types := (types U sents).
  Notation cnt := (cnt U sents).
  Notation ends h := (fun x => words_eqb (removelast x) h).

  Lemma followers_sentence h s : 1 <= length h ->
    length (filter (ends h) (ngrams_in U (S (length h)) s)) <= length (filter (words_eqb h) (ngrams_in U (length h) s)).
  Proof.
    intros Hh. set (n := length h) in *. induction s as [|x s IH]; [unfold ngrams_in; rewrite windows_short by (cbn; lia); cbn; lia|].
    destruct (Nat.le_gt_cases (S n) (S (length s))) as [H|H].
    - assert (E1 : ngrams_in U (S n) (x :: s) = (if forallb ngram_word (firstn (S n) (x :: s)) then [map (lower U) (firstn (S n) (x :: s))] else []) ++ ngrams_in U (S n) s).
      { unfold ngrams_in. rewrite windows_cons by lia. cbn [filter]. destruct (forallb ngram_word (firstn (S n) (x :: s))); reflexivity. }
      assert (E2 : ngrams_in U n (x :: s) = (if forallb ngram_word (firstn n (x :: s)) then [map (lower U) (firstn n (x :: s))] else []) ++ ngrams_in U n s).
      { unfold ngrams_in. rewrite windows_cons by lia. cbn [filter]. destruct (forallb ngram_word (firstn n (x :: s))); reflexivity. }
      rewrite E1, E2, !filter_app, !app_length. apply Nat.add_le_mono; [|exact IH].
      destruct (forallb ngram_word (firstn (S n) (x :: s))) eqn:Ev; [|cbn; lia].
      assert (Ev' : forallb ngram_word (firstn n (x :: s)) = true).
      { apply (forallb_firstn _ n) in Ev. rewrite firstn_firstn in Ev. replace (Nat.min n (S n)) with n in Ev by lia. exact Ev. }
      rewrite Ev'. cbn [filter]. rewrite <- map_removelast', removelast_firstn_S by (cbn [length]; lia).
      destruct (words_eqb (map (lower U) (firstn n (x :: s))) h) eqn:E; [|cbn; lia]. apply words_eqb_eq in E. rewrite E, words_eqb_refl. cbn. lia.
    - unfold ngrams_in at 1. rewrite windows_short by (cbn; lia). cbn. lia.
  Qed.
  Lemma followers_occurrences h : 1 <= length h ->
    length (filter (ends h) (ngrams_of U (S (length h)) sents)) <= cnt h.
  Proof.
    intros Hh. unfold cnt, ngrams_of. induction sents as [|s l IH]; [cbn; lia|]. cbn [flat_map]. rewrite !filter_app, !app_length.
    apply Nat.add_le_mono; [apply followers_sentence; exact Hh|exact IH].
  Qed.
  Definition F (h : list str) : list (list str) := filter (ends h) (types (S (length h))).
  Lemma followers_count h : 1 <= length h -> list_sum (map cnt (F h)) <= cnt h.
  Proof.
    intros Hh. eapply Nat.le_trans; [|apply followers_occurrences; exact Hh]. unfold F, types. rewrite (filter_firsts _ words_eqb_ok).
    set (L := ngrams_of U (S (length h)) sents). set (K := firsts words_eqb (filter (ends h) L)).
    rewrite <- (sum_partition words_eqb words_eqb_ok (fun x => x) K (filter (ends h) L)).
    - apply Nat.eq_le_incl. f_equal. apply map_ext_in. intros g Hg. apply (proj1 (In_firsts words_eqb words_eqb_ok _ _)) in Hg. apply filter_In in Hg. destruct Hg as [Hg1 Hg2].
      unfold cnt. rewrite (ngrams_of_length U (S (length h)) sents g) by (exact Hg1 || lia). fold L. clear Hg1. f_equal. apply words_eqb_eq in Hg2.
      induction L as [|x L IH]; [reflexivity|]. cbn [filter]. destruct (words_eqb (removelast x) h) eqn:E; cbn [filter]; rewrite IH.
      + destruct (words_eqb g x) eqn:E1, (words_eqb x g) eqn:E2; try reflexivity.
        * apply words_eqb_eq in E1. subst. rewrite words_eqb_refl in E2. discriminate.
        * apply words_eqb_eq in E2. subst. rewrite words_eqb_refl in E1. discriminate.
      + destruct (words_eqb g x) eqn:E1; [|reflexivity]. apply words_eqb_eq in E1. subst x. rewrite Hg2, words_eqb_refl in E. discriminate.
    - apply (NoDup_firsts words_eqb words_eqb_ok).
    - intros x Hx. apply (proj2 (In_firsts words_eqb words_eqb_ok _ _)). exact Hx.
  Qed.

  Local Open Scope Q_scope.
  Definition sumD (n : nat) (l : list (list str)) : Q := qsum_list (map (fun x => D U sents n (cnt x)) l).
  Lemma sumD_groups n l : (forall x, In x l -> 1 <= cnt x)%nat ->
    sumD n l == Qn (length (filter (fun x => 1 =? cnt x)%nat l)) * D1 U sents n + Qn (length (filter (fun x => 2 =? cnt x)%nat l)) * D2 U sents n + Qn (length (filter (fun x => 3 <=? cnt x)%nat l)) * D3 U sents n.
  Proof.
    induction l as [|x l IH]; intros H; [unfold sumD; cbn [map qsum_list fold_right filter length]; rewrite Qn_0; ring|]. change (sumD n (x :: l)) with (D U sents n (cnt x) + sumD n l). rewrite IH by (intros; apply H; right; assumption).
    specialize (H x (or_introl eq_refl)). cbn [filter]. destruct (cnt x) as [|[|[|k]]]; [lia| | |]; cbn [Nat.eqb Nat.leb D length].
    all: match goal with |- context [Qn (S ?k)] => change (Qn (S k)) with (Qn (1 + k)); rewrite (Qn_add 1 k) end; change (Qn 1) with 1; ring.
  Qed.
  Lemma left_over_sum h : (1 <= length h)%nat -> left_over U sents h == sumD (S (length h)) (F h).
  Proof.
    intros Hh. rewrite sumD_groups.
    - unfold left_over, following, how_many, F. rewrite !filter_filter_and. reflexivity.
    - intros x Hx. unfold F in Hx. apply filter_In in Hx. eapply cnt_pos; [|apply Hx]. lia.
  Qed.

  (** bounds of the discounts *)
  Lemma Y_bounds n : (1 <= with_count U sents n 1)%nat -> 0 <= Y U sents n.
  Proof.
    intros H. unfold Y. change Qnat with Qn. pose proof (Qn_nonneg (with_count U sents n 2)) as H2. pose proof (Qn_pos _ H) as H1.
    apply Qle_shift_div_l; lra.
  Qed.
  Lemma D1_bounds n : (1 <= with_count U sents n 1)%nat -> 0 <= D1 U sents n <= 1.
  Proof.
    intros H. unfold D1, Y. change Qnat with Qn. pose proof (Qn_nonneg (with_count U sents n 2)) as H2. pose proof (Qn_pos _ H) as H1.
    set (a := Qn (with_count U sents n 1)) in *. set (b := Qn (with_count U sents n 2)) in *.
    assert (E : 1 - 2 * (a / (a + 2 * b)) * b / a == a / (a + 2 * b)) by (field; lra). rewrite E. split; [apply Qle_shift_div_l; lra|apply Qle_shift_div_r; lra].
  Qed.
  Lemma sub_le x a b c : 0 <= a -> 0 <= b -> 0 < c -> x - a * b / c <= x.
  Proof. intros Ha Hb Hc. assert (0 <= a * b / c) by (apply Qle_shift_div_l; [exact Hc|]; rewrite Qmult_0_l; apply Qmult_le_0_compat; assumption). lra. Qed.
  Lemma D2_upper n : (1 <= with_count U sents n 1)%nat -> (1 <= with_count U sents n 2)%nat -> D2 U sents n <= 2.
  Proof. intros H1 H2. apply sub_le; [pose proof (Y_bounds n H1); lra|apply Qn_nonneg|apply Qn_pos; exact H2]. Qed.
  Lemma D3_upper n : (1 <= with_count U sents n 1)%nat -> (1 <= with_count U sents n 3)%nat -> D3 U sents n <= 3.
  Proof. intros H1 H2. apply sub_le; [pose proof (Y_bounds n H1); lra|apply Qn_nonneg|apply Qn_pos; exact H2]. Qed.
  Definition tame (n : nat) : Prop := (forall r, 1 <= r <= 3 -> 1 <= with_count U sents n r)%nat /\ 0 <= D2 U sents n /\ 0 <= D3 U sents n.
  Lemma D_bounds n k : tame n -> 0 <= D U sents n k <= Qn k.
  Proof.
    intros (H & H2 & H3). destruct k as [|[|[|k]]]; cbn [D].
    - split; [lra|apply Qn_nonneg].
    - apply D1_bounds. apply H. lia.
    - split; [exact H2|]. apply D2_upper; apply H; lia.
    - split; [exact H3|]. eapply Qle_trans; [apply D3_upper; apply H; lia|]. change 3 with (Qn 3). apply Qn_le. lia.
  Qed.
  Lemma sumD_bounds n l : tame n -> 0 <= sumD n l /\ forall g, In g l -> sumD n l + (Qn (cnt g) - D U sents n (cnt g)) <= Qn (list_sum (map cnt l)).
  Proof.
    intros HT. induction l as [|x l [IH1 IH2]]; [split; [unfold sumD; cbn; lra|intros g []]|].
    change (sumD n (x :: l)) with (D U sents n (cnt x) + sumD n l). cbn [map]. change (list_sum (cnt x :: map cnt l)) with (cnt x + list_sum (map cnt l))%nat.
    pose proof (D_bounds n (cnt x) HT) as Hx. split; [lra|].
    assert (Hall : sumD n l <= Qn (list_sum (map cnt l))).
    { clear IH2 IH1 Hx. induction l as [|y l IH]; [exact (Qn_nonneg 0)|]. change (sumD n (y :: l)) with (D U sents n (cnt y) + sumD n l). cbn [map].
      change (list_sum (cnt y :: map cnt l)) with (cnt y + list_sum (map cnt l))%nat. rewrite Qn_add. pose proof (D_bounds n (cnt y) HT). lra. }
    intros g [->|Hg]; rewrite Qn_add; [lra|]. specialize (IH2 g Hg). lra.
  Qed.
  Lemma Qmax_l x : 0 <= x -> Qmax x 0 == x.
  Proof. intros H. apply Q.max_l. exact H. Qed.
  Lemma kn_bounds n g : (2 <= n)%nat -> In g (types n) -> tame n -> 0 <= lower_kn U sents (n - 1) (tl g) ->
    0 <= kneser_ney U sents g /\ (lower_kn U sents (n - 1) (tl g) <= 1 -> kneser_ney U sents g <= 1).
  Proof.
    intros Hn Hg HT Hq0. pose proof (types_length U tts n g ltac:(lia) Hg) as Hl. destruct g as [|a [|b g]]; [cbn in Hl; lia|cbn in Hl; lia|].
    unfold kneser_ney. rewrite Hl. set (w := a :: b :: g) in *. set (h := removelast w). set (q := lower_kn U sents (n - 1) (tl w)) in *.
    assert (Hlh : length h = (n - 1)%nat) by (unfold h; rewrite removelast_length; lia).
    assert (Hh : In h (types (n - 1))) by (apply types_removelast; [lia|]; replace (S (n - 1)) with n by lia; exact Hg).
    assert (Hc : 0 < Qn (cnt h)) by (apply Qn_pos; eapply cnt_pos; [|exact Hh]; lia).
    assert (HF : In w (F h)) by (apply filter_In; split; [rewrite Hlh; replace (S (n - 1)) with n by lia; exact Hg|apply words_eqb_refl]).
    pose proof (left_over_sum h ltac:(lia)) as HL. rewrite Hlh in HL. replace (S (n - 1)) with n in HL by lia.
    destruct (sumD_bounds n (F h) HT) as [HS0 HS]. specialize (HS w HF). pose proof (Qn_le _ _ (followers_count h ltac:(lia))) as HC.
    pose proof (D_bounds n (cnt w) HT) as HD. rewrite HL. rewrite (Qmax_l (Qn (cnt w) - D U sents n (cnt w))) by lra. change Qnat with Qn.
    assert (Hx : 0 <= Qn (cnt w) - D U sents n (cnt w)) by lra. set (S0 := sumD n (F h)) in *. set (x := Qn (cnt w) - D U sents n (cnt w)) in *. set (C := Qn (cnt h)) in *.
    assert (E : x / C + S0 / C * q == (x + S0 * q) / C) by (field; lra). rewrite E. assert (Hp : 0 <= S0 * q) by (apply Qmult_le_0_compat; assumption).
    split; [apply Qle_shift_div_l; lra|]. intros Hq1. apply Qle_shift_div_r; [exact Hc|]. assert (S0 * q <= S0) by (setoid_replace S0 with (S0 * 1) at 2 by ring; rewrite (Qmult_comm S0 q), (Qmult_comm S0 1); apply Qmult_le_compat_r; assumption). lra.
  Qed.
  Lemma preceding_sum : list_sum (map (preceding U sents) (types 1)) = length (types 2).
  Proof.
    rewrite <- (sum_partition words_eqb words_eqb_ok (@tl str) (types 1) (types 2)).
    - f_equal. apply map_ext_in. intros g Hg. unfold preceding, how_many. rewrite (types_length U tts 1 g) by (assumption || lia). reflexivity.
    - apply NoDup_types.
    - intros x Hx. apply types_tl; [lia|exact Hx].
  Qed.
  Lemma uni_bounds g : 0 <= lower_kn U sents 1 g /\ (length g = 1%nat -> lower_kn U sents 1 g <= 1).
  Proof.
    cbn [lower_kn]. change Qnat with Qn. destruct (length (types 2)) as [|k] eqn:E.
    - rewrite Qn_0. unfold Qdiv. cbn. split; [apply Qle_lteq; right; ring|intros _]. setoid_replace (Qn (preceding U sents g) * 0) with 0 by ring. lra.
    - assert (H : 0 < Qn (S k)) by (apply Qn_pos; lia). split.
      + apply Qle_shift_div_l; [exact H|]. pose proof (Qn_nonneg (preceding U sents g)). lra.
      + intros Hl. apply Qle_shift_div_r; [exact H|]. rewrite Qmult_1_l. apply Qn_le. rewrite <- E. unfold preceding, how_many. rewrite Hl.
        clear. induction (types 2) as [|x l IH]; [cbn; lia|]. cbn. destruct (words_eqb (tl x) g); cbn; lia.
  Qed.
  Lemma lower_nonneg : forall n, (forall k, 2 <= k <= n -> tame k)%nat -> forall g, (length g = n -> 0 <= lower_kn U sents n g).
  Proof.
    induction n as [|n IH]; intros HT g Hl; [apply (uni_bounds g)|]. destruct n as [|n]; [apply uni_bounds|]. cbn [lower_kn]. change Qnat with Qn.
    assert (Hq : 0 <= lower_kn U sents (S n) (tl g)) by (apply IH; [intros k Hk; apply HT; lia|rewrite tl_length; lia]). cbn [lower_kn] in Hq.
    assert (Hrl : length (removelast g) = S n) by (rewrite removelast_length; lia).
    assert (HL : 0 <= left_over U sents (removelast g)).
    { rewrite left_over_sum by lia. rewrite Hrl. apply sumD_bounds. apply HT. lia. }
    set (A := Qn (around U sents (removelast g))). assert (HA : 0 <= / A) by (apply Qinv_le_0_compat, Qn_nonneg). unfold Qdiv.
    assert (H1 : 0 <= Qmax (Qn (preceding U sents g) - D U sents (S (S (S n))) (preceding U sents g)) 0) by apply Q.le_max_r.
    match goal with |- 0 <= ?a * / A + ?b * / A * ?c => assert (0 <= a * / A) by (apply Qmult_le_0_compat; assumption); assert (0 <= b * / A * c) by (apply Qmult_le_0_compat; [apply Qmult_le_0_compat; assumption|exact Hq]) end.
    lra.
  Qed.
  Lemma uni_sum : (1 <= length (types 2))%nat -> qsum_list (map (kneser_ney U sents) (types 1)) == 1.
  Proof.
    intros H. assert (E : map (kneser_ney U sents) (types 1) = map (fun c => Qn c / Qn (length (types 2))) (map (preceding U sents) (types 1))).
    { rewrite map_map. apply map_ext_in. intros g Hg. pose proof (types_length U tts 1 g ltac:(lia) Hg) as Hl. destruct g as [|w [|]]; cbn in Hl; try lia. reflexivity. }
    pose proof (Qn_pos _ H) as Hp. rewrite E, qsum_scale by lra. rewrite preceding_sum. field. lra.
  Qed.
End Kn.
