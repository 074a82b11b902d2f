(** Proofs about utils/maths.py, utils/timer.py, utils/text.py and the grouping helpers of
    utils/mutables.py. *)
From Coq Require Import Ascii String.
From Coq Require Import List NArith ZArith QArith Arith Bool Lia Permutation.
From Verif Require Import PyBase Regex MUtils LBase SUtils.
Import ListNotations.
Local Open Scope nat_scope.

(** ** xnor *)
Lemma even_xnor_step l b : fold_left Bool.eqb l b = Bool.eqb b (Nat.even (count_false l)).
Proof.
  revert b; induction l as [|x l IH]; intros b; simpl.
  - destruct b; reflexivity.
  - rewrite IH. unfold count_false. simpl. destruct x; simpl.
    + destruct b; reflexivity.
    + change (match length (filter negb l) with 0 => false | S n' => Nat.even n' end) with (Nat.even (S (length (filter negb l)))).
      rewrite Nat.even_succ, <- Nat.negb_even. destruct b, (Nat.even (length (filter negb l))); reflexivity.
Qed.
Lemma xnor_spec l : xnor l = if length l <? 2 then Err IndexError else Ok (Nat.even (count_false l)).
Proof.
  destruct l as [|a [|b l]]; try reflexivity.
  unfold xnor. cbn [length]. replace (S (S (length l)) <? 2) with false by reflexivity.
  assert (slice (Some 2%Z) None (a :: b :: l) = l) as E by (exact (slice_from (a :: b :: l) 2)).
  assert (index (a :: b :: l) 0 = Ok a) as -> by (exact (index_nat (a :: b :: l) 0)).
  assert (index (a :: b :: l) 1 = Ok b) as -> by (exact (index_nat (a :: b :: l) 1)).
  cbn [rbind]. rewrite E, even_xnor_step. unfold count_false. cbn [filter negb].
  destruct a, b; cbn [negb length Bool.eqb]; rewrite ?Nat.even_succ, <- ?Nat.negb_even, ?Nat.even_succ, <- ?Nat.negb_even;
    destruct (Nat.even (length (filter negb l))); reflexivity.
Qed.
Lemma count_false_perm l l' : Permutation l l' -> count_false l = count_false l'.
Proof.
  unfold count_false. induction 1; simpl; try congruence.
  - destruct x; simpl; congruence.
  - destruct x, y; reflexivity.
Qed.

(** ** timer *)
Lemma Qfloor_spec (q : Q) : (inject_Z (Qround.Qfloor q) <= q)%Q /\ (q < inject_Z (Qround.Qfloor q + 1))%Q.
Proof. split; [apply Qround.Qfloor_le | apply Qround.Qlt_floor]. Qed.
Lemma Qfloor_unique q z : (inject_Z z <= q)%Q -> (q < inject_Z (z + 1))%Q -> Qround.Qfloor q = z.
Proof.
  intros H1 H2. destruct (Qfloor_spec q) as [A B].
  assert (C1 : (inject_Z z < inject_Z (Qround.Qfloor q + 1))%Q) by (eapply Qle_lt_trans; eauto).
  assert (C2 : (inject_Z (Qround.Qfloor q) < inject_Z (z + 1))%Q) by (eapply Qle_lt_trans; eauto).
  rewrite <- Zlt_Qlt in C1, C2. lia.
Qed.
(** floor(t / d) and the floor of the remainder *)
Lemma qdivmod_floor t d : (0 < d)%Z -> let '(q, r) := qdivmod t d in
  q = (Qround.Qfloor t / d)%Z /\ Qround.Qfloor r = (Qround.Qfloor t mod d)%Z /\ (0 <= r)%Q.
Proof.
  intros Hd. unfold qdivmod. set (q := Qround.Qfloor (t / inject_Z d)).
  assert (Hdq : (0 < inject_Z d)%Q) by (replace 0%Q with (inject_Z 0) by reflexivity; rewrite <- Zlt_Qlt; exact Hd).
  destruct (Qfloor_spec (t / inject_Z d)) as [A B]. fold q in A, B.
  assert (A' : (inject_Z (d * q) <= t)%Q).
  { rewrite inject_Z_mult. apply Qle_trans with (inject_Z d * (t / inject_Z d))%Q.
    - apply Qmult_le_l; assumption.
    - apply Qle_lteq. right. field. intros E. rewrite E in Hdq. apply Qlt_irrefl in Hdq. exact Hdq. }
  assert (B' : (t < inject_Z (d * (q + 1)))%Q).
  { rewrite inject_Z_mult. apply Qle_lt_trans with (inject_Z d * (t / inject_Z d))%Q.
    - apply Qle_lteq. right. field. intros E. rewrite E in Hdq. apply Qlt_irrefl in Hdq. exact Hdq.
    - apply Qmult_lt_l; assumption. }
  destruct (Qfloor_spec t) as [F1 F2]. set (f := Qround.Qfloor t) in *.
  assert (G1 : (d * q < f + 1)%Z) by (rewrite Zlt_Qlt; eapply Qle_lt_trans; eauto).
  assert (G2 : (f < d * (q + 1))%Z) by (rewrite Zlt_Qlt; eapply Qle_lt_trans; eauto).
  assert (Eq : q = (f / d)%Z) by (apply Z.div_unique with (r := (f - d * q)%Z); lia).
  split; [exact Eq|]. split.
  - assert (Er : (f mod d = f - d * q)%Z) by (rewrite Z.mod_eq by lia; rewrite <- Eq; reflexivity).
    apply Qfloor_unique.
    + rewrite Er. unfold Z.sub. rewrite inject_Z_plus, inject_Z_opp.
      apply Qplus_le_compat; [exact F1|]. apply Qle_refl.
    + rewrite Er. replace (f - d * q + 1)%Z with ((f + 1) + - (d * q))%Z by lia. rewrite inject_Z_plus, inject_Z_opp.
      apply Qplus_lt_l. exact F2.
  - apply Qle_trans with (inject_Z (d * q) - inject_Z (d * q))%Q.
    + apply Qle_lteq. right. ring.
    + apply Qplus_le_compat; [exact A'|apply Qle_refl].
Qed.
Lemma Qfloor_inject z : Qround.Qfloor (inject_Z z) = z.
Proof. apply Qround.Qfloor_Z. Qed.
Lemma qtrunc_nonneg q : (0 <= q)%Q -> qtrunc q = Qround.Qfloor q.
Proof. intros H. unfold qtrunc. apply Qle_bool_iff in H. rewrite H. reflexivity. Qed.

Lemma time_fields_spec t : (0 <= t)%Q -> let '(h, mn, s) := time_fields t in
  (3600 * h + 60 * mn + s = Qround.Qfloor t)%Z /\ (0 <= h)%Z /\ (0 <= mn < 60)%Z /\ (0 <= s < 60)%Z.
Proof.
  intros Ht. unfold time_fields.
  pose proof (qdivmod_floor t 60 ltac:(lia)) as H1. destruct (qdivmod t 60) as [mns secs].
  pose proof (qdivmod_floor (inject_Z mns) 60 ltac:(lia)) as H2. destruct (qdivmod (inject_Z mns) 60) as [h m2].
  rewrite Qfloor_inject in H2. destruct H1 as (A1 & A2 & A3). destruct H2 as (B1 & B2 & B3).
  rewrite !qtrunc_nonneg by assumption. rewrite A2, B2. subst.
  assert (0 <= Qround.Qfloor t)%Z.
  { replace 0%Z with (Qround.Qfloor 0) by reflexivity. apply Qround.Qfloor_resp_le. exact Ht. }
  pose proof (Z.div_mod (Qround.Qfloor t) 60 ltac:(lia)). pose proof (Z.mod_pos_bound (Qround.Qfloor t) 60 ltac:(lia)).
  pose proof (Z.div_mod (Qround.Qfloor t / 60) 60 ltac:(lia)). pose proof (Z.mod_pos_bound (Qround.Qfloor t / 60) 60 ltac:(lia)).
  pose proof (Z.div_pos (Qround.Qfloor t) 60 ltac:(lia) ltac:(lia)). pose proof (Z.div_pos (Qround.Qfloor t / 60) 60 ltac:(lia) ltac:(lia)).
  lia.
Qed.

(** decimal strings *)
Local Opaque Nat.div Nat.modulo N.add.
Lemma dec_value_app s t acc : dec_value (s ++ t) acc = match dec_value s acc with Some a => dec_value t a | None => None end.
Proof. revert acc; induction s as [|c s IH]; intros acc; simpl; [reflexivity|]. destruct (_ && _); [apply IH|reflexivity]. Qed.
Lemma dec_fuel_acc f n acc : dec_fuel f n acc = dec_fuel f n [] ++ acc.
Proof.
  revert n acc; induction f as [|f IH]; intros n acc; simpl; [reflexivity|].
  destruct (n / 10 =? 0); [reflexivity|]. rewrite IH. rewrite (IH _ [_]). rewrite <- app_assoc. reflexivity.
Qed.
Lemma dec_value_digit n acc : dec_value [(48 + N.of_nat (n mod 10))%N] acc = Some (acc * 10 + Z.of_nat (n mod 10))%Z.
Proof.
  pose proof (Nat.mod_upper_bound n 10 ltac:(lia)). simpl.
  replace ((48 <=? 48 + N.of_nat (n mod 10)) && (48 + N.of_nat (n mod 10) <=? 57))%N with true.
  - f_equal. lia.
  - symmetry. apply andb_true_iff. split; apply N.leb_le; lia.
Qed.
Lemma dec_fuel_value f n : n < f -> dec_value (dec_fuel f n []) 0 = Some (Z.of_nat n).
Proof.
  revert n; induction f as [|f IH]; intros n Hn; [lia|]. cbn [dec_fuel].
  pose proof (Nat.div_mod n 10 ltac:(lia)) as D.
  destruct (Nat.eqb_spec (n / 10) 0) as [E|E].
  - rewrite dec_value_digit. f_equal. lia.
  - rewrite dec_fuel_acc, dec_value_app, IH.
    + rewrite dec_value_digit. f_equal. lia.
    + apply Nat.lt_le_trans with n; [apply Nat.div_lt; lia|lia].
Qed.
Lemma str_of_nat_value n : dec_value (str_of_nat n) 0 = Some (Z.of_nat n).
Proof. apply dec_fuel_value. lia. Qed.
Lemma dec_fuel_nonempty f n : f <> 0 -> dec_fuel f n [] <> [].
Proof.
  destruct f; [congruence|]. intros _. simpl. destruct (n / 10 =? 0); [discriminate|].
  rewrite dec_fuel_acc. intros E. apply app_eq_nil in E. destruct E; discriminate.
Qed.
Lemma str_of_nat_digits n : Forall (fun c => (48 <= c <= 57)%N) (str_of_nat n).
Proof.
  unfold str_of_nat. generalize (S n) as f. intros f. revert n.
  assert (H : forall f n acc, Forall (fun c => (48 <= c <= 57)%N) acc -> Forall (fun c => (48 <= c <= 57)%N) (dec_fuel f n acc)).
  { clear. induction f as [|f IH]; intros n acc Ha; simpl; [exact Ha|].
    pose proof (Nat.mod_upper_bound n 10 ltac:(lia)).
    assert (Forall (fun c => (48 <= c <= 57)%N) ((48 + N.of_nat (n mod 10))%N :: acc)) by (constructor; [lia|exact Ha]).
    destruct (n / 10 =? 0); [assumption|apply IH; assumption]. }
  intros n. apply H. constructor.
Qed.
Lemma str_of_nat_inj a b : str_of_nat a = str_of_nat b -> a = b.
Proof. intros E. pose proof (str_of_nat_value a) as H. rewrite E, str_of_nat_value in H. injection H as H. lia. Qed.
Lemma str_of_nat_small n : n < 10 -> length (str_of_nat n) = 1.
Proof. intros H. do 10 (destruct n as [|n]; [reflexivity|]). lia. Qed.
Lemma str_of_nat_two n : 10 <= n < 100 -> length (str_of_nat n) = 2.
Proof.
  intros H. unfold str_of_nat. destruct n as [|n0]; [lia|].
  assert (G : forall f n, 10 <= n < 100 -> length (dec_fuel (S (S f)) n []) = 2).
  { intros f n Hn. cbn [dec_fuel].
    destruct (Nat.eqb_spec (n / 10) 0) as [E|E]; [apply Nat.div_small_iff in E; lia|].
    assert (n / 10 < 10) by (apply Nat.div_lt_upper_bound; lia).
    rewrite (Nat.div_small (n / 10) 10) by assumption. reflexivity. }
  apply G. exact H.
Qed.
Lemma str02_spec z : (0 <= z < 60)%Z -> length (str_of_Z_02 z) = 2 /\ dec_value (str_of_Z_02 z) 0 = Some z.
Proof.
  intros Hz. unfold str_of_Z_02. replace ((z <? 0)%Z) with false by (symmetry; apply Z.ltb_ge; lia).
  rewrite Z.abs_eq by lia.
  assert (Hv : dec_value (str_of_nat (Z.to_nat z)) 0 = Some z) by (rewrite str_of_nat_value; f_equal; lia).
  destruct (Nat.lt_ge_cases (Z.to_nat z) 10) as [H|H].
  - rewrite (str_of_nat_small _ H). simpl. rewrite (str_of_nat_small _ H). split; [reflexivity|exact Hv].
  - rewrite (str_of_nat_two (Z.to_nat z)) by lia. simpl. rewrite (str_of_nat_two (Z.to_nat z)) by lia. split; [reflexivity|exact Hv].
Qed.
Lemma str_of_Z_pos z : (0 <= z)%Z -> dec_value (str_of_Z z) 0 = Some z.
Proof.
  intros H. unfold str_of_Z. replace ((z <? 0)%Z) with false by (symmetry; apply Z.ltb_ge; lia).
  rewrite str_of_nat_value. f_equal. lia.
Qed.

Local Transparent Nat.div Nat.modulo N.add.

(** laps *)
Inductive lap_op := ReadLap | ReadTotal.
Definition do_lap (clock : nat -> Q) (t : timer) (o : lap_op) : timer :=
  match o with ReadLap => snd (timer_lap_time clock t) | ReadTotal => snd (timer_total_time clock t) end.
Lemma do_lap_new clock t o : do_lap clock t o = snd (new_lap clock t).
Proof. destruct o; reflexivity. Qed.
Lemma laps_spec clock r ops :
  let t := fold_left (do_lap clock) ops (timer_init clock r) in
  tm_reads t = r + 1 + 2 * length ops /\ tm_start t = clock (r + 2 * length ops) /\
  tm_laps t = 0%Q :: map (fun i => (clock (r + 2 * i + 1)%nat - clock (r + 2 * i)%nat)%Q) (seq 0 (length ops)).
Proof.
  induction ops as [|o ops IH] using rev_ind; cbv zeta in *.
  - cbn [fold_left timer_init tm_reads tm_start tm_laps length seq map]. replace (r + 2 * 0) with r by lia. split; [lia|split; reflexivity].
  - rewrite fold_left_app. cbn [fold_left]. rewrite do_lap_new. set (t := fold_left _ ops _) in *.
    destruct IH as (I1 & I2 & I3). unfold new_lap. cbn [snd tm_reads tm_start tm_laps]. rewrite I1, I2, I3, app_length.
    cbn [length]. split; [lia|]. split; [f_equal; lia|].
    rewrite seq_app, map_app. cbn [map seq]. simpl app. f_equal. f_equal. f_equal. f_equal; f_equal; lia.
Qed.

(** ** word helpers *)
Lemma token_start_spec w e k s : e <> [] ->
  (token_start w e k = Some s <-> w = s ++ e /\ s <> [] /\ k <= length s).
Proof.
  intros He. assert (Hle : 0 < length e) by (destruct e; [contradiction|simpl; lia]).
  unfold token_start. rewrite slice_drop_last by exact Hle.
  destruct (endswith w e) eqn:E; simpl.
  - apply endswith_iff in E. destruct E as [r ->]. rewrite app_length.
    replace (length r + length e - length e) with (length r) by lia.
    rewrite firstn_app, Nat.sub_diag, firstn_all. simpl. rewrite app_nil_r.
    destruct (Nat.ltb_spec (length e) (length r + length e)) as [H|H].
    + destruct (Nat.leb_spec k (length r)) as [H2|H2].
      * split.
        -- intros F; injection F as <-. repeat split; [destruct r; [simpl in H; lia|discriminate]|exact H2].
        -- intros (F & _). apply app_inv_tail in F. rewrite F; reflexivity.
      * split; [discriminate|]. intros (F & _ & F2). apply app_inv_tail in F. subst. lia.
    + split; [discriminate|]. intros (F & F2 & _). apply app_inv_tail in F. subst. destruct s; [contradiction|simpl in H; lia].
  - split; [discriminate|]. intros (F & _). assert (endswith w e = true) by (apply endswith_iff; eauto). congruence.
Qed.

Lemma split_chr_two sep s a b : split_chr sep s = [a; b] <-> s = a ++ sep :: b /\ ~ In sep a /\ ~ In sep b.
Proof.
  split.
  - intros E. pose proof (split_chr_parts sep s) as P. rewrite E in P. inversion P as [|? ? H1 P2]; subst. inversion P2; subst.
    pose proof (join_split_chr sep s) as J. rewrite E in J. simpl in J. auto.
  - intros (-> & Ha & Hb). rewrite split_chr_app by exact Ha. rewrite split_chr_none by exact Hb. reflexivity.
Qed.
Lemma token_prefix_hyphen w ps a b : w = a ++ 45%N :: b -> ~ In 45%N a -> ~ In 45%N b ->
  token_prefix w ps = Some (a ++ [45%N], b).
Proof.
  intros H1 H2 H3. unfold token_prefix. assert (split_chr 45%N w = [a; b]) as -> by (apply split_chr_two; auto). reflexivity.
Qed.
Lemma token_prefix_other w ps : ~ occurs_once 45%N w ->
  token_prefix w ps = match find (fun p => startswith w p) ps with
                      | Some p => Some (p, skipn (length p) w) | None => None end.
Proof.
  intros H. unfold token_prefix. destruct (split_chr 45%N w) as [|a [|b [|c l]]] eqn:E; rewrite ?slice_from;
    try (destruct (find _ ps); [rewrite slice_from|]; reflexivity).
  exfalso. apply H. apply split_chr_two in E. exists a, b. exact E.
Qed.
Lemma occurs_once_dec c s : occurs_once c s \/ ~ occurs_once c s.
Proof.
  destruct (split_chr c s) as [|a [|b [|d l]]] eqn:E.
  - right. intros (x & y & H). apply split_chr_two in H. congruence.
  - right. intros (x & y & H). apply split_chr_two in H. congruence.
  - left. exists a, b. apply split_chr_two. exact E.
  - right. intros (x & y & H). apply split_chr_two in H. congruence.
Qed.
Lemma token_prefix_concat w ps p b : token_prefix w ps = Some (p, b) -> w = p ++ b.
Proof.
  destruct (occurs_once_dec 45%N w) as [(x & y & H1 & H2 & H3)|H].
  - rewrite (token_prefix_hyphen w ps x y H1 H2 H3). intros E; injection E as <- <-. rewrite <- app_assoc. exact H1.
  - rewrite token_prefix_other by exact H. destruct (find _ ps) as [q|] eqn:F; [|discriminate].
    intros E; injection E as <- <-. apply find_some in F. destruct F as [_ F]. apply startswith_iff in F. destruct F as [r ->].
    rewrite skipn_app, skipn_all, Nat.sub_diag. reflexivity.
Qed.

(** ** text marking *)
Lemma detach_attach t attrs :
  detach_attributes (attach_attributes t attrs) = t :: not_none attrs <-> Forall (fun s => ~ In 187%N s) (t :: not_none attrs).
Proof.
  unfold detach_attributes, attach_attributes. split; intros H.
  - rewrite <- H. apply split_chr_parts.
  - apply split_chr_join; [discriminate|exact H].
Qed.
Lemma dissociate_associate a b :
  dissociate (associate [Some a; Some b]) = Some (a, b) <-> ~ In 449%N a /\ ~ In 449%N b.
Proof.
  unfold dissociate, associate. simpl. split.
  - destruct (split_chr 449%N (a ++ 449%N :: b)) as [|x [|y [|z l]]] eqn:E; try discriminate.
    intros F; injection F as -> ->. apply split_chr_two in E. tauto.
  - intros [Ha Hb]. rewrite split_chr_app by exact Ha. rewrite split_chr_none by exact Hb. reflexivity.
Qed.
Lemma defunctionalize_functionalize f a :
  defunctionalize (functionalize f [Some a]) = Ok (f, a) <-> ~ In 40%N f /\ ~ In 40%N a.
Proof.
  unfold defunctionalize, functionalize. simpl. change (f ++ 40%N :: a ++ [41%N]) with (f ++ 40%N :: (a ++ [41%N])).
  split.
  - destruct (split_chr 40%N (f ++ 40%N :: (a ++ [41%N]))) as [|x [|y [|z l]]] eqn:E; try discriminate.
    intros F; injection F as -> F. apply split_chr_two in E. destruct E as (E1 & E2 & E3).
    apply app_inv_head in E1. injection E1 as E1. subst y. split; [exact E2|]. intros H. apply E3. apply in_app_iff. auto.
  - intros [Hf Ha]. rewrite split_chr_app by exact Hf. rewrite split_chr_none.
    + change (-1)%Z with (- Z.of_nat 1)%Z. rewrite (slice_drop_last (a ++ [41%N]) 1) by lia. rewrite app_length. simpl.
      replace (length a + 1 - 1) with (length a) by lia. rewrite firstn_app, Nat.sub_diag, firstn_all. simpl. rewrite app_nil_r. reflexivity.
    + intros H. apply in_app_iff in H. destruct H as [H|[H|[]]]; [auto|discriminate].
Qed.

(** ** letters *)
Section Letters.
  Context (U : udb).
  Definition kfull (st : mst) : option mst := match aft st with [] => Some st | _ => None end.
  Lemma star_chr_full cs st : (exists st', m U false (Star true (Chr cs)) st kfull = Some st') <-> Forall (fun c => cset_match U false cs c = true) (aft st).
  Proof.
    simpl. set (loop := fix loop (fuel : nat) (st0 : mst) : option mst := _).
    remember (length (aft st)) as n eqn:En.
    revert st En; induction n as [|n IH]; intros st En.
    - destruct (aft st) eqn:E; [|discriminate]. simpl. unfold kfull. rewrite E. split; [constructor|eauto].
    - destruct (aft st) as [|c a] eqn:E; [discriminate|]. cbn [loop].
      assert (Hk : kfull st = None) by (unfold kfull; rewrite E; reflexivity). rewrite Hk, E.
      destruct (cset_match U false cs c) eqn:Ec.
      + cbn [aft]. replace (length a <? length (c :: a)) with true by (symmetry; apply Nat.ltb_lt; simpl; lia).
        specialize (IH {| bef := c :: bef st; aft := a; caps := caps st |} ltac:(simpl in *; lia)). cbn [aft] in IH.
        split.
        * intros [st' H]. constructor; [exact Ec|]. apply IH.
          destruct (loop n {| bef := c :: bef st; aft := a; caps := caps st |}); [eauto|discriminate].
        * intros H. inversion H; subst. apply IH in H3. destruct H3 as [st' H3]. exists st'. fold loop. rewrite H3. reflexivity.
      + split; [intros [st' H]; discriminate|]. intros H. inversion H; subst. congruence.
  Qed.
  Lemma letter_class c : cset_match U false (cls [az; AZ]) c = true <-> (97 <= c <= 122 \/ 65 <= c <= 90)%N.
  Proof.
    unfold cset_match, cls, az, AZ. cbn [cs_neg cs_items existsb citem_match]. rewrite !orb_false_r, xorb_false_l.
    rewrite orb_true_iff, !andb_true_iff, !N.leb_le. lia.
  Qed.
  Lemma has_only_letters_spec w : has_only_letters U w = true <-> ascii_letters w.
  Proof.
    unfold has_only_letters, fullmatch, re_only_letters, plus.
    change (fun st : mst => match aft st with [] => Some st | _ :: _ => None end) with kfull.
    cbn [m]. cbn [aft]. unfold ascii_letters. destruct w as [|c a].
    - split; [discriminate|]. intros [H _]; contradiction.
    - destruct (cset_match U false (cls [az; AZ]) c) eqn:Ec.
      + pose proof (star_chr_full (cls [az; AZ]) {| bef := [c]; aft := a; caps := [] |}) as S. cbn [aft] in S.
        cbn [m aft] in S. cbn [bef caps aft].
        destruct ((fix loop (fuel : nat) (st0 : mst) {struct fuel} : option mst := _) (length a) _) as [st'|].
        * split; [|reflexivity]. intros _. split; [discriminate|]. constructor; [apply letter_class; exact Ec|].
          assert (H : Forall (fun c0 => cset_match U false (cls [az; AZ]) c0 = true) a) by (apply S; eauto).
          eapply Forall_impl; [|exact H]. intros x Hx. apply letter_class. exact Hx.
        * split; [discriminate|]. intros [_ H]. inversion H; subst.
          assert (E : exists st', @None mst = Some st').
          { apply S. eapply Forall_impl; [|exact H3]. intros x Hx. apply letter_class. exact Hx. }
          destruct E; discriminate.
      + split; [discriminate|]. intros [_ H]. inversion H; subst. apply letter_class in H2. congruence.
  Qed.
End Letters.

(** ** grouping *)
Section GroupingProofs.
  Context {K V : Type} (eqb : K -> K -> bool) (Heqb : eqb_ok eqb).

  Lemma append_dget d k v k' : dget eqb k' (append_to_dict_list eqb d k v) =
    if eqb k' k then Some (match dget eqb k d with Some l => l | None => [] end ++ [v]) else dget (V := list V) eqb k' d.
  Proof.
    unfold append_to_dict_list. destruct (dget eqb k d) eqn:E; rewrite (dget_dset eqb Heqb); reflexivity.
  Qed.
  Lemma append_keys d k (v : V) : dkeys (append_to_dict_list eqb d k v) = if dmem eqb k d then dkeys d else dkeys d ++ [k].
  Proof. unfold append_to_dict_list. destruct (dget eqb k d) eqn:E; rewrite (dkeys_dset eqb); reflexivity. Qed.

  Definition group (l : list (K * V)) : dict K (list V) :=
    fold_left (fun d '(k, v) => append_to_dict_list eqb d k v) l [].

  Lemma firsts_app l k : firsts eqb (l ++ [k]) = if existsb (eqb k) l then firsts eqb l else firsts eqb l ++ [k].
  Proof.
    induction l as [|x l IH]; simpl; [reflexivity|]. rewrite IH.
    destruct (eqb k x) eqn:E; simpl.
    - apply Heqb in E. subst. destruct (existsb (eqb x) l); [reflexivity|]. rewrite filter_app. simpl.
      rewrite (eqb_ok_refl _ Heqb). simpl. rewrite app_nil_r. reflexivity.
    - destruct (existsb (eqb k) l); [reflexivity|]. rewrite filter_app. simpl.
      replace (eqb x k) with false; [reflexivity|]. symmetry. apply (eqb_ok_false _ Heqb). apply (eqb_ok_false _ Heqb) in E. congruence.
  Qed.
  Lemma In_firsts l k : In k (firsts eqb l) <-> In k l.
  Proof.
    induction l as [|x l IH]; simpl; [tauto|]. rewrite filter_In, IH. split.
    - intros [H|[H _]]; auto.
    - intros [H|H]; [auto|]. destruct (eqb_ok_reflect _ Heqb x k); [auto|]. right. auto.
  Qed.
  Lemma NoDup_firsts l : NoDup (firsts eqb l).
  Proof.
    induction l as [|x l IH]; simpl; constructor.
    - rewrite filter_In. intros [_ H]. rewrite (eqb_ok_refl _ Heqb) in H. discriminate.
    - apply NoDup_filter. exact IH.
  Qed.

  Lemma group_spec l : dkeys (group l) = firsts eqb (map fst l) /\
    forall k, dget eqb k (group l) = if existsb (fun p => eqb k (fst p)) l then Some (values_of eqb k l) else None.
  Proof.
    induction l as [|[k v] l [IH1 IH2]] using rev_ind; [split; reflexivity|].
    assert (EG : group (l ++ [(k, v)]) = append_to_dict_list eqb (group l) k v) by (unfold group; rewrite fold_left_app; reflexivity).
    rewrite EG. clear EG. set (d := group l) in *. clearbody d. split.
    - rewrite append_keys, map_app. cbn [map fst]. rewrite firsts_app. unfold dmem. rewrite IH2, IH1.
      assert (E : existsb (eqb k) (map fst l) = existsb (fun p => eqb k (fst p)) l) by (clear; induction l; simpl; congruence).
      rewrite E. destruct (existsb _ l); reflexivity.
    - intros k'. rewrite append_dget. rewrite existsb_app. cbn [existsb fst]. rewrite orb_false_r.
      unfold values_of. rewrite filter_app, map_app. cbn [filter fst]. destruct (eqb k' k) eqn:E.
      + rewrite orb_true_r. apply Heqb in E. subst k'. rewrite IH2. cbn [map snd]. f_equal.
        destruct (existsb (fun p => eqb k (fst p)) l) eqn:Ex; [reflexivity|].
        simpl. f_equal. clear -Ex. induction l as [|[a b] l IH]; simpl in *; [reflexivity|].
        apply orb_false_iff in Ex. destruct Ex as [E1 E2]. rewrite E1. apply IH. exact E2.
      + rewrite orb_false_r, app_nil_r. apply IH2.
  Qed.
End GroupingProofs.

Section GroupingMore.
  Context {K : Type} (eqb : K -> K -> bool) (Heqb : eqb_ok eqb).
  Lemma values_app {V} k (l : list (K * V)) k' v : values_of eqb k (l ++ [(k', v)]) = values_of eqb k l ++ (if eqb k k' then [v] else []).
  Proof. unfold values_of. rewrite filter_app, map_app. cbn [filter fst]. destruct (eqb k k'); reflexivity. Qed.
  Lemma values_none {V} k (l : list (K * V)) : existsb (fun p => eqb k (fst p)) l = false -> values_of eqb k l = [].
  Proof. induction l as [|[a b] l IH]; [reflexivity|]. cbn [existsb fst]. intros E. apply orb_false_iff in E. destruct E as [E1 E2]. unfold values_of. cbn [filter fst]. rewrite E1. apply IH. exact E2. Qed.
  (** grouping with any way to add a value to what is stored for a key *)
  Lemma group_by {V W} (add : option W -> V -> W) (step : dict K W -> K -> V -> dict K W) :
    (forall d k v, step d k v = dset eqb k (add (dget eqb k d) v) d) -> forall (l : list (K * V)),
    let d := fold_left (fun d '(k, v) => step d k v) l [] in
    dkeys d = firsts eqb (map fst l) /\ forall k, dget eqb k d = fold_left (fun w v => Some (add w v)) (values_of eqb k l) None.
  Proof.
    intros HS. induction l as [|[k v] l [IH1 IH2]] using rev_ind; [split; reflexivity|]. cbv zeta in *. rewrite fold_left_app. cbn [fold_left].
    set (d := fold_left (fun d '(k, v) => step d k v) l []) in *. clearbody d. rewrite HS. split.
    - rewrite (dkeys_dset eqb), map_app. cbn [map fst]. rewrite (firsts_app eqb Heqb), IH1.
      destruct (dmem eqb k d) eqn:E; destruct (existsb (eqb k) (map fst l)) eqn:E2; try reflexivity; exfalso.
      + apply (dmem_In eqb Heqb) in E. rewrite IH1, (In_firsts eqb Heqb) in E. assert (existsb (eqb k) (map fst l) = true); [|congruence]. apply existsb_exists. exists k. split; [exact E|apply (eqb_ok_refl _ Heqb)].
      + apply existsb_exists in E2. destruct E2 as (x & Hx & Ex). apply Heqb in Ex. subst x. assert (dmem eqb k d = true); [|congruence]. apply (dmem_In eqb Heqb). rewrite IH1, (In_firsts eqb Heqb). exact Hx.
    - intros k'. rewrite (dget_dset eqb Heqb), values_app. destruct (eqb k' k) eqn:E; [|rewrite app_nil_r; apply IH2].
      apply Heqb in E. subst k'. rewrite fold_left_app. cbn [fold_left]. rewrite <- IH2. reflexivity.
  Qed.
End GroupingMore.

(** ** reverse_dict *)
Section ReverseProofs.
  Context {K V : Type} (keqb : K -> K -> bool) (veqb : V -> V -> bool) (Hk : eqb_ok keqb) (Hv : eqb_ok veqb).

  Lemma reverse_dict_app (d : dict K V) k v : reverse_dict veqb (d ++ [(k, v)]) = dset veqb v k (reverse_dict veqb d).
  Proof. unfold reverse_dict. rewrite fold_left_app. reflexivity. Qed.

  (** each value is mapped to the last key that had it *)
  Lemma reverse_dget (d : dict K V) v k :
    dget veqb v (reverse_dict veqb d) = Some k <->
    exists d1 d2, d = d1 ++ (k, v) :: d2 /\ ~ In v (dvalues d2).
  Proof.
    induction d as [|[k2 v2] d IH] using rev_ind.
    - split; [discriminate|]. intros (d1 & d2 & E & _). destruct d1; discriminate.
    - rewrite reverse_dict_app, (dget_dset veqb Hv). destruct (eqb_ok_reflect _ Hv v v2) as [->|Hne].
      + split.
        * intros E; injection E as ->. exists d, []. split; [reflexivity|]. simpl. tauto.
        * intros (d1 & d2 & E & Hn). destruct d2 as [|p d2] using rev_ind.
          -- apply app_inj_tail in E. destruct E as [_ E]. congruence.
          -- exfalso. rewrite app_comm_cons, app_assoc in E. apply app_inj_tail in E. destruct E as [_ <-].
             apply Hn. unfold dvalues. rewrite map_app, in_app_iff. simpl. auto.
      + rewrite IH. split; intros (d1 & d2 & E & Hn).
        * exists d1, (d2 ++ [(k2, v2)]). split; [rewrite E, <- app_assoc; reflexivity|].
          unfold dvalues. rewrite map_app, in_app_iff. simpl. intros [H|[H|[]]]; [exact (Hn H)|congruence].
        * destruct d2 as [|p d2] using rev_ind.
          -- apply app_inj_tail in E. destruct E as [_ E]. congruence.
          -- clear IHd2. rewrite app_comm_cons, app_assoc in E. apply app_inj_tail in E. destruct E as [-> <-].
             exists d1, d2. split; [reflexivity|]. intros H. apply Hn. unfold dvalues. rewrite map_app, in_app_iff. auto.
  Qed.
  Lemma reverse_distinct (d : dict K V) : NoDup (dvalues d) -> reverse_dict veqb d = map (fun '(k, v) => (v, k)) d.
  Proof.
    induction d as [|[k v] d IH] using rev_ind; intros Hnd; [reflexivity|].
    rewrite reverse_dict_app, map_app. unfold dvalues in *. rewrite map_app in Hnd. cbn [map snd] in Hnd.
    apply NoDup_remove in Hnd. rewrite app_nil_r in Hnd. destruct Hnd as [Hnd Hn].
    rewrite IH by exact Hnd. apply dset_new. apply (dget_None veqb Hv). unfold dkeys. rewrite map_map.
    intros H. apply Hn. apply in_map_iff in H. destruct H as ([a b] & <- & H). apply (in_map snd) in H. exact H.
  Qed.
End ReverseProofs.
Lemma reverse_twice {K V} (keqb : K -> K -> bool) (veqb : V -> V -> bool) (d : dict K V) :
  eqb_ok keqb -> eqb_ok veqb -> NoDup (dkeys d) -> NoDup (dvalues d) -> reverse_dict keqb (reverse_dict veqb d) = d.
Proof.
  intros Hk Hv H1 H2. rewrite (reverse_distinct veqb Hv d H2). rewrite (reverse_distinct keqb Hk).
  - rewrite map_map. rewrite <- (map_id d) at 2. apply map_ext. intros [a b]. reflexivity.
  - unfold dvalues. rewrite map_map. unfold dkeys in H1. erewrite map_ext; [exact H1|]. intros [a b]; reflexivity.
Qed.

(** ** displayed times *)
Lemma time_string_displays t : (0 <= t)%Q -> displays (time_string t) t.
Proof.
  intros Ht. unfold time_string. pose proof (time_fields_spec t Ht) as H. destruct (time_fields t) as [[h mn] s].
  destruct H as (E & Hh & Hm & Hs). destruct (str02_spec mn Hm) as [M1 M2]. destruct (str02_spec s Hs) as [S1 S2].
  exists (str_of_Z h), (str_of_Z_02 mn), (str_of_Z_02 s), h, mn, s. repeat split; auto; try lia. apply str_of_Z_pos. exact Hh.
Qed.
Lemma displays_eq s t t' : (t == t')%Q -> displays s t -> displays s t'.
Proof.
  intros E (a & b & c & h & mn & sec & H). exists a, b, c, h, mn, sec.
  rewrite (Qround.Qfloor_comp _ _ E) in H. exact H.
Qed.
Lemma fold_Qplus_acc l : forall a, (fold_left Qplus l a == a + fold_left Qplus l 0)%Q.
Proof.
  induction l as [|x l IH]; intros a; simpl; [ring|]. rewrite IH, (IH (0 + x)%Q). ring.
Qed.
Lemma sum_laps f n : (fold_left Qplus (0%Q :: map f (seq 0 n)) 0 == qsum n f)%Q.
Proof.
  induction n as [|n IH]; [reflexivity|]. rewrite seq_S, map_app. cbn [map fold_left qsum] in *.
  rewrite fold_left_app. cbn [fold_left]. rewrite IH. cbn [Nat.add]. reflexivity.
Qed.
Lemma qsum_nonneg n f : (forall i, 0 <= f i)%Q -> (0 <= qsum n f)%Q.
Proof.
  intros H. induction n as [|n IH]; simpl; [apply Qle_refl|].
  replace 0%Q with (0 + 0)%Q by reflexivity. apply Qplus_le_compat; auto.
Qed.
Lemma timer_history clock r ops : (forall i, clock i <= clock (S i))%Q ->
  let t := fold_left (do_lap clock) ops (timer_init clock r) in
  let lap i := (clock (r + 2 * i + 1)%nat - clock (r + 2 * i)%nat)%Q in
  displays (fst (timer_lap_time clock t)) (lap (length ops)) /\
  displays (fst (timer_total_time clock t)) (qsum (S (length ops)) lap).
Proof.
  intros Hc t lap. pose proof (laps_spec clock r ops) as H. cbv zeta in H. fold t in H. destruct H as (H1 & H2 & H3).
  assert (Hpos : forall i, (0 <= lap i)%Q).
  { intros i. unfold lap. apply -> Qle_minus_iff. replace (r + 2 * i + 1) with (S (r + 2 * i)) by lia. apply Hc. }
  assert (El : fst (new_lap clock t) = lap (length ops)).
  { unfold new_lap. cbn [fst]. rewrite H1, H2. unfold lap. f_equal. f_equal. lia. }
  assert (El' : tm_laps (snd (new_lap clock t)) = 0%Q :: map lap (seq 0 (S (length ops)))).
  { change (tm_laps (snd (new_lap clock t))) with (tm_laps t ++ [fst (new_lap clock t)]).
    rewrite El, H3, seq_S, map_app. reflexivity. }
  unfold timer_lap_time, timer_total_time. destruct (new_lap clock t) as [l t'] eqn:E. cbn [fst snd] in *. subst l. split.
  - apply time_string_displays. apply Hpos.
  - eapply displays_eq; [apply sum_laps|]. rewrite <- El'. apply time_string_displays. rewrite El', sum_laps.
    apply qsum_nonneg. exact Hpos.
Qed.
