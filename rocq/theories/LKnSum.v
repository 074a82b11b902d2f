(** Sums of the Kneser-Ney values of the ngrams that share their first words. *)
From Coq Require Import Ascii String.
From Coq Require Import List NArith ZArith QArith Qminmax Arith Bool Lia Lqa.
From Verif Require Import PyBase Regex MUtils SUtils LBase LText LUtils MNgram SLangModel LNgram LLangModel MSmooth LSmooth LCorpus LMkn LMkn2 LKn.
Import ListNotations.
Local Open Scope nat_scope.

Section KnSum.
  Context (U : udb) (tts : list (list (list str))).
  Notation sents := (sents tts).
  Notation types := (types U sents).
  Notation cnt := (cnt U sents).
  Notation F := (F U tts).
  Local Open Scope Q_scope.

  Lemma D_upper n k : (forall r, 1 <= r <= 3 -> 1 <= with_count U sents n r)%nat -> D U sents n k <= Qn k.
  Proof.
    intros H. destruct k as [|[|[|k]]]; cbn [D].
    - apply Qn_nonneg.
    - apply D1_bounds. apply H. lia.
    - apply D2_upper; apply H; lia.
    - eapply Qle_trans; [apply D3_upper; apply H; lia|]. change 3 with (Qn 3). apply Qn_le. lia.
  Qed.
  Lemma kn_value n g : (2 <= n)%nat -> In g (types n) -> (forall r, 1 <= r <= 3 -> 1 <= with_count U sents n r)%nat ->
    kneser_ney U sents g == (Qn (cnt g) - D U sents n (cnt g) + left_over U sents (removelast g) * lower_kn U sents (n - 1) (tl g)) / Qn (cnt (removelast g)).
  Proof.
    intros Hn Hg HR. pose proof (types_length U tts n g ltac:(lia) Hg) as Hl. destruct g as [|a [|b g]]; [cbn in Hl; lia|cbn in Hl; lia|].
    unfold kneser_ney. rewrite Hl. set (w := a :: b :: g) in *. change Qnat with Qn. pose proof (D_upper n (cnt w) HR) as HD. rewrite Qmax_l by lra. unfold Qdiv. ring.
  Qed.
  Lemma kn_sum_over n h l : (2 <= n)%nat -> (forall r, 1 <= r <= 3 -> 1 <= with_count U sents n r)%nat ->
    (forall g, In g l -> In g (types n) /\ removelast g = h) ->
    qsum_list (map (kneser_ney U sents) l) ==
    (Qn (list_sum (map cnt l)) - sumD U tts n l + left_over U sents h * qsum_list (map (fun g => lower_kn U sents (n - 1) (tl g)) l)) / Qn (cnt h).
  Proof.
    intros Hn HR. induction l as [|g l IH]; intros Hl.
    - unfold sumD. cbn [map qsum_list fold_right list_sum]. rewrite Qn_0. unfold Qdiv. ring.
    - destruct (Hl g (or_introl eq_refl)) as [Hg Hh]. cbn [map]. change (qsum_list (?x :: ?r)) with (x + qsum_list r).
      change (list_sum (cnt g :: map cnt l)) with (cnt g + list_sum (map cnt l))%nat. change (sumD U tts n (g :: l)) with (D U sents n (cnt g) + sumD U tts n l).
      change (qsum_list (?x :: ?r)) with (x + qsum_list r).
      rewrite IH by (intros; apply Hl; right; assumption). rewrite (kn_value n g Hn Hg HR), Hh, Qn_add. unfold Qdiv. ring.
  Qed.
  Lemma kn_sum n h : (2 <= n)%nat -> In h (types (n - 1)) -> (forall r, 1 <= r <= 3 -> 1 <= with_count U sents n r)%nat ->
    qsum_list (map (kneser_ney U sents) (F h)) ==
    Qn (list_sum (map cnt (F h))) / Qn (cnt h) - left_over U sents h / Qn (cnt h) * (1 - qsum_list (map (fun g => lower_kn U sents (n - 1) (tl g)) (F h))).
  Proof.
    intros Hn Hh HR. pose proof (types_length U tts (n - 1) h ltac:(lia) Hh) as Hl.
    rewrite (kn_sum_over n h); [|exact Hn|exact HR|].
    - rewrite (left_over_sum U tts h) by lia. rewrite Hl. replace (S (n - 1)) with n by lia. unfold Qdiv. ring.
    - intros g Hg. apply filter_In in Hg. destruct Hg as [H1 H2]. rewrite Hl in H1. replace (S (n - 1)) with n in H1 by lia. split; [exact H1|]. apply words_eqb_eq. exact H2.
  Qed.
  Lemma qsum_incl_le (f : list str -> Q) : (forall g, 0 <= f g) -> forall l l', NoDup l -> incl l l' -> qsum_list (map f l) <= qsum_list (map f l').
  Proof.
    intros H0. induction l as [|x l IH]; intros l' HN HI.
    - cbn. induction l' as [|y l' IH]; cbn; [lra|]. assert (0 <= qsum_list (map f l')) by (apply IH; intros z []). unfold qsum_list in H. specialize (H0 y). lra.
    - destruct (in_split x l' (HI x (or_introl eq_refl))) as (a & b & ->). inversion HN as [|? ? Hx HN']. subst.
      specialize (IH (a ++ b) HN'). assert (HI' : incl l (a ++ b)).
      { intros y Hy. specialize (HI y (or_intror Hy)). apply in_app_or in HI. apply in_or_app. destruct HI as [|[<-|]]; [left; assumption|contradiction|right; assumption]. }
      specialize (IH HI'). cbn [map]. change (qsum_list (?x :: ?r)) with (x + qsum_list r).
      assert (E : qsum_list (map f (a ++ x :: b)) == f x + qsum_list (map f (a ++ b))).
      { clear. induction a as [|y a IH]; cbn [app map]; [reflexivity|]. change (qsum_list (?x :: ?r)) with (x + qsum_list r). rewrite IH. ring. }
      rewrite E. lra.
  Qed.
  Lemma last_words_sum h : In h (types 1) -> (1 <= length (types 2))%nat -> qsum_list (map (fun g => lower_kn U sents 1 (tl g)) (F h)) <= 1.
  Proof.
    intros Hh H2. pose proof (types_length U tts 1 h ltac:(lia) Hh) as Hl. rewrite <- (map_map (@tl str) (lower_kn U sents 1)). rewrite <- (uni_sum U tts H2).
    assert (E : map (kneser_ney U sents) (types 1) = map (lower_kn U sents 1) (types 1)).
    { apply map_ext_in. intros g Hg. pose proof (types_length U tts 1 g ltac:(lia) Hg) as Hg'. destruct g as [|w [|]]; cbn in Hg'; try lia. reflexivity. }
    rewrite E. apply qsum_incl_le; [intros g; apply uni_bounds| |].
    - assert (HN : NoDup (F h)) by (apply NoDup_filter, NoDup_types).
      assert (HF : forall g, In g (F h) -> exists a b, g = [a; b] /\ h = [a]).
      { intros g Hg. apply filter_In in Hg. destruct Hg as [Hg Hr]. apply words_eqb_eq in Hr. rewrite Hl in Hg. pose proof (types_length U tts 2 g ltac:(lia) Hg) as Hg2.
        destruct g as [|a [|b [|]]]; cbn in Hg2; try lia. exists a, b. split; [reflexivity|symmetry; exact Hr]. }
      revert HN HF. generalize (F h). induction l as [|g l IH]; intros HN HF; [constructor|]. inversion HN as [|? ? Hg HN']. subst. cbn [map]. constructor; [|apply IH; [exact HN'|intros; apply HF; right; assumption]].
      intros Hin. apply in_map_iff in Hin. destruct Hin as (g' & Ht & Hg'). destruct (HF g (or_introl eq_refl)) as (a & b & -> & Ea). destruct (HF g' (or_intror Hg')) as (a' & b' & -> & Ea').
      cbn in Ht. injection Ht as ->. rewrite Ea in Ea'. injection Ea' as ->. contradiction.
    - intros x Hx. apply in_map_iff in Hx. destruct Hx as (g & <- & Hg). apply filter_In in Hg. destruct Hg as [Hg _]. rewrite Hl in Hg. apply types_tl; [lia|exact Hg].
  Qed.
End KnSum.
