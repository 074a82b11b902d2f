(** The data ranges of the smoothers (langmodel/smoother.py:37-40) cover all samples in order, despite binary64. *)
From Coq Require Import List ZArith Reals Lia Lra Bool Arith.
From Flocq Require Import Core.Core Relative IEEE754.BinarySingleNaN.
From Verif Require Import PyBase MUtils MNgram MSmooth LBase LLinspace LUtils.
Import ListNotations.

Section Marks2.
  Local Open Scope R_scope.
  Context (L n : Z) (Hn : (1 <= n <= 2 ^ 53)%Z) (HL : (0 <= L <= 2 ^ 53)%Z).
  Notation x := (IZR L / IZR n).
  Lemma LR2 : 1 <= IZR n <= IZR (2 ^ 53) /\ 0 <= IZR L <= IZR (2 ^ 53).
  Proof. repeat split; apply IZR_le; lia. Qed.
  Lemma ratio2 : 0 <= x <= IZR L.
  Proof.
    pose proof LR2 as H. split.
    - apply Rmult_le_pos; [lra|]. apply Rlt_le, Rinv_0_lt_compat. lra.
    - apply Rmult_le_reg_r with (IZR n); [lra|]. unfold Rdiv. rewrite Rmult_assoc, Rinv_l by lra. nra.
  Qed.
  Lemma step_correct2 : B2R (step64 L n) = RN x /\ is_finite (step64 L n) = true.
  Proof.
    unfold step64, b64_div.
    destruct (of_Z_correct L) as (L1 & L2); [lia|]. destruct (of_Z_correct n) as (n1 & n2); [lia|].
    pose proof (Bdiv_correct 53 1024 p53_gt_0 p53_lt_emax mode_NE (b64_of_Z L) (b64_of_Z n)) as C.
    rewrite L1, n1, fexp64_eq in C. change (round_mode mode_NE) with ZnearestE in C. fold (RN x) in C.
    rewrite small_no_overflow in C.
    - destruct C as (C1 & C2 & _); [apply IZR_neq; lia|]. rewrite L2 in C2. split; assumption.
    - pose proof ratio2. pose proof LR2. rewrite Rabs_pos_eq by lra.
      apply Rle_trans with (IZR (2 ^ 53)); [lra|]. apply IZR_le. lia.
  Qed.
  Lemma step_nonneg2 : 0 <= RN x.
  Proof. rewrite <- RN_0. apply RN_le. apply ratio2. Qed.
  Lemma step_upper2 : RN x <= x * (1 + u).
  Proof.
    pose proof u_bounds as Hu. pose proof LR2 as H. destruct (Z.eq_dec L 0) as [E|E].
    - rewrite E. unfold Rdiv. rewrite Rmult_0_l, RN_0. lra.
    - assert (1 <= IZR L) by (apply IZR_le; lia).
      destruct (relative_error_N_FLT_ex radix2 (-1074) 53 eq_refl (fun z => negb (Z.even z)) x) as (eps & He & Heq).
      + rewrite Rabs_pos_eq by apply ratio2. apply Rle_trans with (bpow radix2 (-53)); [apply bpow_le; lia|].
        change (-53)%Z with (- (53))%Z. rewrite (bpow_opp radix2 53). replace (bpow radix2 53) with (IZR (2 ^ 53)) by (rewrite <- IZR_Zpower by lia; reflexivity).
        apply Rmult_le_reg_r with (IZR n); [lra|]. unfold Rdiv. rewrite Rmult_assoc, (Rinv_l (IZR n)) by lra. rewrite Rmult_1_r.
        apply Rle_trans with (/ IZR (2 ^ 53) * IZR (2 ^ 53)); [apply Rmult_le_compat_l; [apply Rlt_le, Rinv_0_lt_compat; lra|lra]|].
        rewrite Rinv_l by lra. lra.
      + unfold RN. rewrite Heq. assert (Rabs eps <= u) as He' by (eapply Rle_trans; [exact He|]; unfold u; simpl; lra).
        apply Rabs_le_inv in He'. apply Rmult_le_compat_l; [apply ratio2|lra].
  Qed.
  Lemma prod_le2 i : (0 <= i < n)%Z -> IZR i * RN x <= IZR L.
  Proof.
    intros Hi. pose proof LR2 as H. pose proof step_upper2 as H2. pose proof step_nonneg2 as H3. pose proof u_bounds as Hu.
    assert (Hi1 : 0 <= IZR i <= IZR n - 1) by (split; [apply IZR_le; lia | rewrite <- minus_IZR; apply IZR_le; lia]).
    apply Rle_trans with ((IZR n - 1) * (x * (1 + u))).
    - apply Rmult_le_compat; lra.
    - assert (Hnu : IZR n * u <= 1).
      { apply Rle_trans with (IZR (2 ^ 53) * u); [apply Rmult_le_compat_r; lra|].
        unfold u. rewrite Rinv_r by (apply IZR_neq; discriminate). lra. }
      replace ((IZR n - 1) * (x * (1 + u))) with (IZR L * ((IZR n - 1) * (1 + u) / IZR n)) by (field; lra).
      rewrite <- (Rmult_1_r (IZR L)) at 2. apply Rmult_le_compat_l; [lra|].
      apply Rmult_le_reg_r with (IZR n); [lra|]. unfold Rdiv. rewrite Rmult_assoc, Rinv_l by lra. nra.
  Qed.
  Lemma mult_correct2 i : (0 <= i < n)%Z -> B2R (b64_mult (b64_of_Z i) (step64 L n)) = RN (IZR i * RN x).
  Proof.
    intros Hi. unfold b64_mult.
    destruct (of_Z_correct i) as (i1 & i2); [lia|]. destruct step_correct2 as (s1 & s2).
    pose proof (Bmult_correct 53 1024 p53_gt_0 p53_lt_emax mode_NE (b64_of_Z i) (step64 L n)) as C.
    rewrite i1, s1, fexp64_eq in C. change (round_mode mode_NE) with ZnearestE in C.
    fold (RN (IZR i * RN x)) in C. rewrite small_no_overflow in C.
    - destruct C as (C1 & _). exact C1.
    - pose proof (prod_le2 i Hi). pose proof step_nonneg2. pose proof LR2.
      assert (0 <= IZR i) by (apply IZR_le; lia).
      rewrite Rabs_pos_eq by nra.
      apply Rle_trans with (IZR (2 ^ 53)); [lra|]. apply IZR_le. lia.
  Qed.
  Lemma yR2 i : (0 <= i < n)%Z -> 0 <= RN (IZR i * RN x) <= IZR L.
  Proof.
    intros Hi. pose proof step_nonneg2. assert (0 <= IZR i) by (apply IZR_le; lia). split.
    - rewrite <- RN_0. apply RN_le. nra.
    - apply Rle_trans with (RN (IZR L)); [apply RN_le; apply prod_le2; exact Hi|]. rewrite (RN_IZR L) by lia. lra.
  Qed.
  Lemma mark_floor2 i : (0 <= i < n)%Z -> mark L n i = Zfloor (RN (IZR i * RN x)).
  Proof.
    intros Hi. unfold mark, b64_int. apply eq_IZR.
    rewrite (Btrunc_correct 53 1024 p53_lt_emax). rewrite mult_correct2 by exact Hi.
    rewrite round_FIX_IZR. rewrite Ztrunc_floor by (apply yR2; exact Hi). reflexivity.
  Qed.
  Lemma mark2_0 : mark L n 0 = 0%Z.
  Proof. rewrite mark_floor2 by lia. rewrite Rmult_0_l, RN_0. apply Zfloor_IZR. Qed.
  Lemma mark2_bounds i : (0 <= i < n)%Z -> (0 <= mark L n i <= L)%Z.
  Proof.
    intros Hi. rewrite mark_floor2 by exact Hi. pose proof (yR2 i Hi) as [H1 H2]. split.
    - apply (Zfloor_le 0) in H1. rewrite (Zfloor_IZR 0) in H1. exact H1.
    - apply Zfloor_le in H2. rewrite Zfloor_IZR in H2. exact H2.
  Qed.
  Lemma mark2_mono i j : (0 <= i <= j)%Z -> (j < n)%Z -> (mark L n i <= mark L n j)%Z.
  Proof.
    intros Hi Hj. rewrite !mark_floor2 by lia. apply Zfloor_le, RN_le.
    apply Rmult_le_compat_r; [apply step_nonneg2|]. apply IZR_le; lia.
  Qed.
End Marks2.

Local Open Scope nat_scope.
Lemma range_concat ms a : mono (a :: ms) -> concat (map (fun '(x, y) => range x y) (adjacent (a :: ms))) = range a (last (a :: ms) 0).
Proof.
  revert a; induction ms as [|b ms IH]; intros a Hm; [unfold range; cbn; rewrite Nat.sub_diag; reflexivity|].
  destruct Hm as [Hab Hm]. specialize (IH b Hm).
  change (adjacent (a :: b :: ms)) with ((a, b) :: adjacent (b :: ms)). cbn [map concat]. rewrite IH.
  change (last (a :: b :: ms) 0) with (last (b :: ms) 0).
  assert (Hl : b <= last (b :: ms) 0).
  { clear - Hm. revert b Hm. induction ms as [|c ms IH]; intros b Hm; [cbn; lia|]. destruct Hm as [H1 H2]. specialize (IH c H2). change (last (b :: c :: ms) 0) with (last (c :: ms) 0). lia. }
  unfold range. set (e := last (b :: ms) 0) in *. replace (e - a) with ((b - a) + (e - b)) by lia. rewrite seq_app. f_equal. f_equal. lia.
Qed.

Lemma process_ranges_marks len n : process_ranges len (Z.of_nat n) = map (fun '(a, b) => range a b) (adjacent (map (fun x => Z.to_nat (b64_int x)) (linspace (Z.of_nat len) (Z.of_nat n)))).
Proof. unfold process_ranges. rewrite adjacent_map, map_map. apply map_ext. intros [a b]. reflexivity. Qed.
Lemma linspace_marks len n : 1 <= n -> (Z.of_nat n <= 2 ^ 53)%Z -> (Z.of_nat len <= 2 ^ 53)%Z ->
  map (fun x => Z.to_nat (b64_int x)) (linspace (Z.of_nat len) (Z.of_nat n)) =
  map (fun i => Z.to_nat (mark (Z.of_nat len) (Z.of_nat n) (Z.of_nat i))) (seq 0 n) ++ [len].
Proof.
  intros H1 H2 H3. unfold linspace. rewrite map_app, map_map, Nat2Z.id. cbn [map]. rewrite (of_Z_int (A := nat) [0] 1) by (cbn; lia). rewrite Nat2Z.id. reflexivity.
Qed.
Lemma process_ranges_length len n : 1 <= n -> length (process_ranges len (Z.of_nat n)) = n.
Proof.
  intros H. unfold process_ranges. rewrite map_length, adjacent_length. unfold linspace. rewrite app_length, map_length, seq_length, Nat2Z.id. cbn. lia.
Qed.
Lemma process_ranges_cover len n : 1 <= n -> (Z.of_nat n <= 2 ^ 53)%Z -> (Z.of_nat len <= 2 ^ 53)%Z ->
  concat (process_ranges len (Z.of_nat n)) = seq 0 len.
Proof.
  intros H1 H2 H3. rewrite process_ranges_marks, linspace_marks by assumption.
  set (M := fun i => Z.to_nat (mark (Z.of_nat len) (Z.of_nat n) (Z.of_nat i))).
  assert (HM : mono (map M (seq 0 n) ++ [len])).
  { apply mono_nth. intros i x y Hx Hy.
    assert (Hi : i < n).
    { assert (S i < length (map M (seq 0 n) ++ [len])) by (apply nth_error_Some; congruence). rewrite app_length, map_length, seq_length in H. cbn in H. lia. }
    rewrite nth_error_app1 in Hx by (rewrite map_length, seq_length; exact Hi). rewrite nth_error_map in Hx.
    rewrite (nth_error_nth' (seq 0 n) 0) in Hx by (rewrite seq_length; exact Hi). rewrite seq_nth in Hx by exact Hi. cbn [option_map plus] in Hx. injection Hx as <-.
    destruct (Nat.lt_ge_cases (S i) n) as [Hs|Hs].
    - rewrite nth_error_app1 in Hy by (rewrite map_length, seq_length; exact Hs). rewrite nth_error_map in Hy.
      rewrite (nth_error_nth' (seq 0 n) 0) in Hy by (rewrite seq_length; exact Hs). rewrite seq_nth in Hy by exact Hs. cbn [option_map plus] in Hy. injection Hy as <-.
      unfold M. apply Z2Nat.inj_le; [apply mark2_bounds; lia|apply mark2_bounds; lia|]. apply mark2_mono; lia.
    - rewrite nth_error_app2 in Hy by (rewrite map_length, seq_length; exact Hs). rewrite map_length, seq_length in Hy.
      replace (S i - n) with 0 in Hy by lia. cbn in Hy. injection Hy as <-. unfold M.
      pose proof (mark2_bounds (Z.of_nat len) (Z.of_nat n) ltac:(lia) ltac:(lia) (Z.of_nat i) ltac:(lia)). lia. }
  destruct n as [|n']; [lia|]. cbn [seq map app] in *.
  rewrite range_concat by exact HM.
  assert (E0 : M 0 = 0) by (unfold M; rewrite mark2_0 by lia; reflexivity). rewrite E0.
  assert (EL : last (0 :: map M (seq 1 n') ++ [len]) 0 = len) by (rewrite app_comm_cons, last_last; reflexivity).
  rewrite EL. unfold range. rewrite Nat.sub_0_r. reflexivity.
Qed.
