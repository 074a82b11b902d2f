(** The marks of numpy.linspace in binary64 (utils/mutables.py:10): proofs with Flocq. *)
From Coq Require Import List ZArith Reals Lia Lra Bool.
From Flocq Require Import Core.Core Relative IEEE754.BinarySingleNaN.
From Verif Require Import PyBase MUtils LBase.
Import ListNotations.
Local Open Scope R_scope.

Notation fexp64 := (FLT_exp (-1074) 53).
Definition RN (x : R) : R := round radix2 fexp64 ZnearestE x.

Local Instance p53 : Prec_gt_0 53 := eq_refl.
Lemma RN_le x y : x <= y -> RN x <= RN y.
Proof. apply round_le; auto with typeclass_instances. Qed.
Lemma RN_IZR z : (Z.abs z <= 2 ^ 53)%Z -> RN (IZR z) = IZR z.
Proof.
  intros H. apply round_generic; auto with typeclass_instances.
  destruct (Z.eq_dec (Z.abs z) (2 ^ 53)) as [E|E].
  - assert (Hb : generic_format radix2 fexp64 (bpow radix2 53)).
    { apply generic_format_bpow. unfold FLT_exp. simpl. lia. }
    assert (Ep : bpow radix2 53 = IZR (2 ^ 53)) by (rewrite <- IZR_Zpower by lia; reflexivity).
    rewrite Ep in Hb.
    destruct (Z.abs_eq_or_opp z) as [F|F].
    + replace z with (2 ^ 53)%Z by lia. exact Hb.
    + replace z with (- 2 ^ 53)%Z by lia. rewrite opp_IZR. apply generic_format_opp. exact Hb.
  - apply generic_format_FLT. exists (Float radix2 z 0).
    + unfold F2R. simpl. lra.
    + simpl Fnum. change (radix2 ^ 53)%Z with (2 ^ 53)%Z. lia.
    + simpl. lia.
Qed.
Lemma RN_0 : RN 0 = 0.
Proof. apply round_0. auto with typeclass_instances. Qed.

(** Relative error *)
Definition u := / IZR (2 ^ 53).
Lemma u_bounds : 0 < u < 1 / 1000000.
Proof. unfold u. split; [apply Rinv_0_lt_compat; apply IZR_lt; reflexivity|].
  apply Rmult_lt_reg_l with (IZR (2 ^ 53)); [apply IZR_lt; reflexivity|].
  rewrite Rinv_r by (apply IZR_neq; discriminate). lra. Qed.
Lemma RN_rel x : 1 <= x -> x * (1 - u) <= RN x <= x * (1 + u).
Proof.
  intros Hx. destruct (relative_error_N_FLT_ex radix2 (-1074) 53 eq_refl (fun z => negb (Z.even z)) x) as (eps & He & Heq).
  - rewrite Rabs_pos_eq by lra. apply Rle_trans with (bpow radix2 0); [apply bpow_le; lia|exact Hx].
  - unfold RN. rewrite Heq.
    assert (Rabs eps <= u) as He'.
    { eapply Rle_trans; [exact He|]. unfold u. simpl. lra. }
    apply Rabs_le_inv in He'. split; apply Rmult_le_compat_l; lra.
Qed.

Lemma fexp64_eq : SpecFloat.fexp 53 1024 = fexp64.
Proof. reflexivity. Qed.

Lemma small_no_overflow x : Rabs x <= IZR (2 ^ 54) -> Rlt_bool (Rabs (RN x)) (bpow radix2 1024) = true.
Proof.
  intros H. apply Rlt_bool_true.
  assert (H2 : Rabs (RN x) <= bpow radix2 54).
  { apply abs_round_le_generic; auto with typeclass_instances.
    { apply generic_format_bpow. unfold FLT_exp. simpl. lia. } }
  eapply Rle_lt_trans; [exact H2|]. apply bpow_lt. lia.
Qed.

Lemma of_Z_correct z : (Z.abs z <= 2 ^ 53)%Z -> B2R (b64_of_Z z) = IZR z /\ is_finite (b64_of_Z z) = true.
Proof.
  intros H. unfold b64_of_Z.
  pose proof (binary_normalize_correct 53 1024 p53_gt_0 p53_lt_emax mode_NE z 0 false) as C.
  cbv zeta in C. rewrite fexp64_eq in C. change (round_mode mode_NE) with ZnearestE in C.
  assert (E : F2R (Float radix2 z 0) = IZR z) by (unfold F2R; simpl; ring).
  rewrite E in C. fold (RN (IZR z)) in C. rewrite small_no_overflow in C.
  - destruct C as (C1 & C2 & _). rewrite RN_IZR in C1 by exact H. split; assumption.
  - rewrite <- abs_IZR. apply IZR_le. lia.
Qed.

Section Marks.
  Context (L n : Z) (Hn : (1 <= n)%Z) (HnL : (n <= L)%Z) (HL : (L <= 2 ^ 53)%Z).

  Definition step64 : b64 := b64_div (b64_of_Z L) (b64_of_Z n).
  Definition mark (i : Z) : Z := b64_int (b64_mult (b64_of_Z i) step64).

  Lemma LR : 1 <= IZR n <= IZR L /\ IZR L <= IZR (2 ^ 53).
  Proof. repeat split; apply IZR_le; lia. Qed.

  Lemma ratio_bounds : 1 <= IZR L / IZR n <= IZR (2 ^ 53).
  Proof.
    pose proof LR as H. split.
    - apply Rmult_le_reg_r with (IZR n); [lra|]. unfold Rdiv. rewrite Rmult_assoc, Rinv_l by lra. lra.
    - apply Rmult_le_reg_r with (IZR n); [lra|]. unfold Rdiv. rewrite Rmult_assoc, Rinv_l by lra. nra.
  Qed.

  Lemma step_correct : B2R step64 = RN (IZR L / IZR n) /\ is_finite step64 = true.
  Proof.
    unfold step64, b64_div.
    destruct (of_Z_correct L) as (L1 & L2); [lia|]. destruct (of_Z_correct n) as (n1 & n2); [lia|].
    pose proof (Bdiv_correct 53 1024 p53_gt_0 p53_lt_emax mode_NE (b64_of_Z L) (b64_of_Z n)) as C.
    rewrite L1, n1, fexp64_eq in C. change (round_mode mode_NE) with ZnearestE in C. fold (RN (IZR L / IZR n)) in C.
    rewrite small_no_overflow in C.
    - destruct C as (C1 & C2 & _); [apply IZR_neq; lia|]. rewrite L2 in C2. split; assumption.
    - pose proof ratio_bounds. rewrite Rabs_pos_eq by lra.
      apply Rle_trans with (IZR (2 ^ 53)); [lra|]. apply IZR_le. lia.
  Qed.

  Definition stepR := RN (IZR L / IZR n).
  Lemma stepR_bounds : IZR L / IZR n * (1 - u) <= stepR <= IZR L / IZR n * (1 + u).
  Proof. apply RN_rel. apply ratio_bounds. Qed.
  Lemma stepR_ge_1 : 1 <= stepR.
  Proof. replace 1 with (RN 1) by (apply (RN_IZR 1); lia). apply RN_le. apply ratio_bounds. Qed.

  (** i * step <= L for i < n *)
  Lemma prod_le i : (0 <= i < n)%Z -> IZR i * stepR <= IZR L.
  Proof.
    intros Hi. pose proof LR as H. pose proof stepR_bounds as [_ H2]. pose proof stepR_ge_1 as H3. pose proof u_bounds as Hu.
    assert (Hi1 : 0 <= IZR i <= IZR n - 1) by (split; [apply IZR_le; lia | rewrite <- minus_IZR; apply IZR_le; lia]).
    apply Rle_trans with ((IZR n - 1) * (IZR L / IZR n * (1 + u))).
    - apply Rmult_le_compat; lra.
    - assert (Hnu : IZR n * u <= 1).
      { apply Rle_trans with (IZR (2 ^ 53) * u); [apply Rmult_le_compat_r; [lra|apply IZR_le; lia]|].
        unfold u. rewrite Rinv_r by (apply IZR_neq; discriminate). lra. }
      replace ((IZR n - 1) * (IZR L / IZR n * (1 + u))) with (IZR L * ((IZR n - 1) * (1 + u) / IZR n)) by (field; lra).
      rewrite <- (Rmult_1_r (IZR L)) at 2. apply Rmult_le_compat_l; [lra|].
      apply Rmult_le_reg_r with (IZR n); [lra|]. unfold Rdiv. rewrite Rmult_assoc, Rinv_l by lra. nra.
  Qed.

  Lemma mult_correct i : (0 <= i < n)%Z -> B2R (b64_mult (b64_of_Z i) step64) = RN (IZR i * stepR).
  Proof.
    intros Hi. unfold b64_mult.
    destruct (of_Z_correct i) as (i1 & i2); [lia|]. destruct step_correct as (s1 & s2).
    pose proof (Bmult_correct 53 1024 p53_gt_0 p53_lt_emax mode_NE (b64_of_Z i) step64) as C.
    rewrite i1, s1, fexp64_eq in C. change (round_mode mode_NE) with ZnearestE in C. fold stepR in C.
    fold (RN (IZR i * stepR)) in C. rewrite small_no_overflow in C.
    - destruct C as (C1 & _). exact C1.
    - pose proof (prod_le i Hi). pose proof stepR_ge_1. pose proof LR.
      assert (0 <= IZR i) by (apply IZR_le; lia).
      rewrite Rabs_pos_eq by nra.
      apply Rle_trans with (IZR (2 ^ 53)); [lra|]. apply IZR_le. lia.
  Qed.

  Lemma yR_bounds i : (0 <= i < n)%Z -> 0 <= RN (IZR i * stepR) <= IZR L.
  Proof.
    intros Hi. pose proof stepR_ge_1. assert (0 <= IZR i) by (apply IZR_le; lia). split.
    - rewrite <- RN_0. apply RN_le. nra.
    - rewrite <- (RN_IZR L) by lia. apply RN_le. apply prod_le; exact Hi.
  Qed.

  Lemma mark_floor i : (0 <= i < n)%Z -> mark i = Zfloor (RN (IZR i * stepR)).
  Proof.
    intros Hi. unfold mark, b64_int. apply eq_IZR.
    rewrite (Btrunc_correct 53 1024 p53_lt_emax). rewrite mult_correct by exact Hi.
    rewrite round_FIX_IZR. rewrite Ztrunc_floor by (apply yR_bounds; exact Hi). reflexivity.
  Qed.

  Lemma mark_0 : mark 0 = 0%Z.
  Proof. rewrite mark_floor by lia. rewrite Rmult_0_l, RN_0. apply Zfloor_IZR. Qed.
  Lemma mark_bounds i : (0 <= i < n)%Z -> (0 <= mark i <= L)%Z.
  Proof.
    intros Hi. rewrite mark_floor by exact Hi. pose proof (yR_bounds i Hi) as [H1 H2]. split.
    - apply (Zfloor_le 0) in H1. rewrite (Zfloor_IZR 0) in H1. exact H1.
    - apply Zfloor_le in H2. rewrite Zfloor_IZR in H2. exact H2.
  Qed.
  Lemma mark_mono i j : (0 <= i <= j)%Z -> (j < n)%Z -> (mark i <= mark j)%Z.
  Proof.
    intros Hi Hj. rewrite !mark_floor by lia. apply Zfloor_le, RN_le.
    apply Rmult_le_compat_r; [pose proof stepR_ge_1; lra|]. apply IZR_le; lia.
  Qed.

  (** Balanced marks *)
  Context (Hsmall : (L * n <= 2 ^ 50)%Z).

  Lemma y_close i : (0 <= i < n)%Z -> Rabs (RN (IZR i * stepR) - IZR i * IZR L / IZR n) < / IZR n.
  Proof.
    intros Hi. pose proof LR as H. pose proof u_bounds as Hu. pose proof stepR_bounds as Hs. pose proof stepR_ge_1 as H1.
    destruct (Z.eq_dec i 0) as [->|Hi0].
    - rewrite Rmult_0_l, RN_0. replace (0 - 0 * IZR L / IZR n) with 0 by (field; lra). rewrite Rabs_R0. apply Rinv_0_lt_compat; lra.
    - assert (Hi1 : 1 <= IZR i) by (apply IZR_le; lia).
      assert (Hin : IZR i <= IZR n) by (apply IZR_le; lia).
      set (e := IZR i * IZR L / IZR n).
      assert (He : IZR i * (IZR L / IZR n) = e) by (unfold e; field; lra).
      assert (Hp : e * (1 - u) <= IZR i * stepR <= e * (1 + u)).
      { rewrite <- He. split; rewrite Rmult_assoc; apply Rmult_le_compat_l; lra. }
      assert (Hq : 1 <= IZR i * stepR) by nra.
      pose proof (RN_rel _ Hq) as Hr.
      assert (HeL : 0 <= e <= IZR L).
      { rewrite <- He. pose proof ratio_bounds. split; [nra|].
        apply Rle_trans with (IZR n * (IZR L / IZR n)); [apply Rmult_le_compat_r; lra|]. right. field. lra. }
      assert (Herr : Rabs (RN (IZR i * stepR) - e) <= e * (3 * u)).
      { apply Rabs_le. split.
        - assert (e * (1 - u) * (1 - u) <= RN (IZR i * stepR)) by (eapply Rle_trans; [|apply Hr]; apply Rmult_le_compat_r; lra).
          nra.
        - assert (RN (IZR i * stepR) <= e * (1 + u) * (1 + u)) by (eapply Rle_trans; [apply Hr|]; apply Rmult_le_compat_r; lra).
          nra. }
      eapply Rle_lt_trans; [exact Herr|].
      apply Rle_lt_trans with (IZR L * (3 * u)); [apply Rmult_le_compat_r; lra|].
      apply Rmult_lt_reg_r with (IZR n); [lra|]. rewrite Rinv_l by lra.
      assert (HLn : IZR L * IZR n <= IZR (2 ^ 50)) by (rewrite <- mult_IZR; apply IZR_le; exact Hsmall).
      apply Rle_lt_trans with (IZR (2 ^ 50) * (3 * u)); [nra|].
      unfold u. apply Rmult_lt_reg_r with (IZR (2 ^ 53)); [apply IZR_lt; reflexivity|].
      replace (IZR (2 ^ 50) * (3 * / IZR (2 ^ 53)) * IZR (2 ^ 53)) with (3 * IZR (2 ^ 50)) by (field; apply IZR_neq; discriminate).
      rewrite Rmult_1_l. change 3 with (IZR 3). rewrite <- mult_IZR. apply IZR_lt. reflexivity.
  Qed.

  (** mark i is floor(i*L/n), or one less when i*L/n is an integer *)
  Lemma mark_near i : (0 <= i < n)%Z -> (mark i * n <= i * L < (mark i + 1) * n)%Z \/ ((mark i + 1) * n = i * L)%Z.
  Proof.
    intros Hi. pose proof (y_close i Hi) as Hc. pose proof LR as H.
    rewrite mark_floor by exact Hi. set (y := RN (IZR i * stepR)) in *. set (k := Zfloor y).
    assert (Hk : IZR k <= y < IZR k + 1) by (split; [apply Zfloor_lb | apply Zfloor_ub]).
    apply Rabs_def2 in Hc. destruct Hc as [Hc1 Hc2].
    assert (Hinv : / IZR n * IZR n = 1) by (apply Rinv_l; lra).
    assert (He : IZR i * IZR L / IZR n * IZR n = IZR i * IZR L) by (field; lra).
    set (e := IZR i * IZR L / IZR n) in *.
    (* k - 1/n < e < k + 1 + 1/n, times n, in integers *)
    assert (A1 : (k * n - 1 < i * L)%Z).
    { apply lt_IZR. rewrite minus_IZR, !mult_IZR. rewrite <- He. nra. }
    assert (A2 : (i * L < (k + 1) * n + 1)%Z).
    { apply lt_IZR. rewrite plus_IZR, !mult_IZR, plus_IZR. rewrite <- He. nra. }
    destruct (Z.eq_dec ((k + 1) * n) (i * L)); [right; assumption|left]. lia.
  Qed.

  (** when n divides L, all marks are exact *)
  Lemma mark_exact i q : (L = q * n)%Z -> (0 <= i < n)%Z -> mark i = (i * q)%Z.
  Proof.
    intros HLq Hi. pose proof LR as H. rewrite mark_floor by exact Hi.
    assert (E : stepR = IZR q).
    { unfold stepR. rewrite HLq, mult_IZR. replace (IZR q * IZR n / IZR n) with (IZR q) by (field; lra).
      apply RN_IZR. nia. }
    rewrite E, <- mult_IZR. rewrite RN_IZR by nia. apply Zfloor_IZR.
  Qed.

  Lemma size_balanced i : (0 <= i)%Z -> (i + 1 < n)%Z -> (L / n <= mark (i + 1) - mark i <= L / n + 1)%Z.
  Proof.
    intros Hi Hi1. pose proof (Z.div_mod L n ltac:(lia)) as D. pose proof (Z.mod_pos_bound L n ltac:(lia)) as Hr.
    set (q := (L / n)%Z) in *. set (r := (L mod n)%Z) in *.
    destruct (Z.eq_dec r 0) as [E|E].
    - rewrite !(mark_exact _ q) by lia. lia.
    - pose proof (mark_near i ltac:(lia)) as A. pose proof (mark_near (i + 1) ltac:(lia)) as B. nia.
  Qed.
  Lemma last_balanced : (L / n <= L - mark (n - 1) <= L / n + 1)%Z.
  Proof.
    pose proof (Z.div_mod L n ltac:(lia)) as D. pose proof (Z.mod_pos_bound L n ltac:(lia)) as Hr.
    set (q := (L / n)%Z) in *. set (r := (L mod n)%Z) in *.
    destruct (Z.eq_dec r 0) as [E|E].
    - rewrite !(mark_exact _ q) by lia. nia.
    - pose proof (mark_near (n - 1) ltac:(lia)) as A. nia.
  Qed.
End Marks.
