(** Decimal numbers and files of ngrams: what is written is read back. *)
From Coq Require Import Ascii String.
From Coq Require Import List NArith ZArith QArith Qround Qabs Arith Bool Lia Lqa Permutation.
From Verif Require Import PyBase Regex MUtils SUtils LBase LText LUtils MNgram MLangModel MSmooth MBuilder SLangModel LNgram LLangModel.
Import ListNotations.
Local Open Scope nat_scope.

Definition all_digits (s : str) : Prop := Forall (fun c => (48 <= c <= 57)%N) s.

Lemma lstrip_none sp s : Forall (fun c => sp c = false) s -> lstrip sp s = s.
Proof. intros H. destruct H as [|c s Hc _]; [reflexivity|]. cbn. rewrite Hc. reflexivity. Qed.
Lemma strip_none sp s : Forall (fun c => sp c = false) s -> strip sp s = s.
Proof. intros H. unfold strip. rewrite (lstrip_none sp s) by exact H. rewrite lstrip_none by (apply Forall_rev; exact H). apply rev_involutive. Qed.
Lemma strip_trailing sp s c : Forall (fun c => sp c = false) s -> s <> [] -> sp c = true -> strip sp (s ++ [c]) = s.
Proof.
  intros H Hn Hc. unfold strip. assert (E : lstrip sp (s ++ [c]) = s ++ [c]) by (destruct H as [|d s Hd _]; [congruence|]; cbn; rewrite Hd; reflexivity).
  rewrite E, rev_app_distr. cbn. rewrite Hc. rewrite lstrip_none by (apply Forall_rev; exact H). apply rev_involutive.
Qed.
Lemma digit_val_digit c : (48 <= c <= 57)%N -> digit_val c = Some (Z.of_N c - 48)%Z.
Proof. intros H. unfold digit_val. destruct (N.leb_spec 48 c), (N.leb_spec c 57); try lia. reflexivity. Qed.
Lemma int_digits_dec s : all_digits s -> forall acc, int_digits s acc = dec_value s acc.
Proof.
  induction 1 as [|c s Hc _ IH]; intros acc; [reflexivity|]. cbn [int_digits dec_value]. rewrite digit_val_digit by exact Hc. destruct (N.leb_spec 48 c), (N.leb_spec c 57); try lia. cbn [andb]. apply IH.
Qed.
Lemma digits_val_dec s : forall acc, digits_val s acc = dec_value s acc.
Proof. induction s as [|c s IH]; intros acc; [reflexivity|]. cbn [digits_val dec_value]. unfold digit_val. destruct ((48 <=? c) && (c <=? 57))%N; [apply IH|reflexivity]. Qed.
Lemma digits_not_space U : udb_ok U -> forall s, all_digits s -> Forall (fun c => u_space U c = false) s.
Proof.
  intros OK s H. eapply Forall_impl; [|exact H]. cbn. intros c Hc. rewrite (ok_space _ OK) by lia. unfold ascii_space.
  repeat match goal with |- context [N.leb ?a ?b] => destruct (N.leb_spec a b) | |- context [N.eqb ?a ?b] => destruct (N.eqb_spec a b) end; try reflexivity; lia.
Qed.
Lemma int_str U : udb_ok U -> forall n, int_of_str (u_space U) (str_of_nat n) = Ok (Z.of_nat n).
Proof.
  intros OK n. unfold int_of_str. pose proof (str_of_nat_digits n) as Hd. rewrite strip_none by (apply digits_not_space; assumption).
  pose proof (str_of_nat_value n) as Hv. destruct (str_of_nat n) as [|c s] eqn:E; [exfalso; revert E; apply dec_fuel_nonempty; discriminate|].
  inversion Hd as [|? ? Hc Hs]; subst. destruct (N.eqb_spec c 45); [lia|]. destruct (N.eqb_spec c 43); [lia|]. unfold int_unsigned. rewrite digit_val_digit by exact Hc.
  rewrite int_digits_dec by exact Hs. cbn [dec_value] in Hv. destruct (N.leb_spec 48 c), (N.leb_spec c 57); try lia. cbn [andb] in Hv. rewrite Z.mul_0_l, Z.add_0_l in Hv. rewrite Hv. reflexivity.
Qed.

(** digits *)
Lemma dec_one (d : Z) acc : (0 <= d <= 9)%Z -> dec_value [(48 + Z.to_N d)%N] acc = Some (acc * 10 + d)%Z.
Proof. intros H. cbn [dec_value]. destruct (N.leb_spec 48 (48 + Z.to_N d)), (N.leb_spec (48 + Z.to_N d) 57); try lia. cbn [andb]. f_equal. lia. Qed.
Lemma digits_pad_ok n : forall z acc, (0 <= z < 10 ^ Z.of_nat n)%Z -> dec_value (digits_pad n z) acc = Some (acc * 10 ^ Z.of_nat n + z)%Z.
Proof.
  induction n as [|n IH]; intros z acc Hz; [cbn in *; f_equal; lia|]. cbn [digits_pad]. rewrite dec_value_app.
  pose proof (Z.div_mod z 10 ltac:(lia)) as Dm. pose proof (Z.mod_pos_bound z 10 ltac:(lia)) as Mb.
  replace (10 ^ Z.of_nat (S n))%Z with (10 * 10 ^ Z.of_nat n)%Z in * by (rewrite Nat2Z.inj_succ, Z.pow_succ_r by lia; reflexivity).
  rewrite IH by (split; [apply Z.div_pos; lia|apply Z.div_lt_upper_bound; lia]). rewrite dec_one by lia. f_equal. rewrite Dm at 3. ring.
Qed.
Lemma digits_pad_digits n : forall z, all_digits (digits_pad n z).
Proof. induction n as [|n IH]; intros z; [constructor|]. cbn [digits_pad]. apply Forall_app. split; [apply IH|]. pose proof (Z.mod_pos_bound z 10 ltac:(lia)) as Mb. constructor; [lia|constructor]. Qed.
Lemma digits_pad_length n : forall z, length (digits_pad n z) = n.
Proof. induction n as [|n IH]; intros z; [reflexivity|]. cbn [digits_pad]. rewrite app_length, IH. cbn. lia. Qed.
Lemma digits_Z_ok fuel : forall z, (0 <= z < 10 ^ Z.of_nat fuel)%Z -> 1 <= fuel -> dec_value (digits_Z fuel z) 0 = Some z /\ digits_Z fuel z <> [] /\ all_digits (digits_Z fuel z).
Proof.
  induction fuel as [|f IH]; intros z Hz Hf; [lia|]. cbn [digits_Z]. destruct (Z.ltb_spec z 10) as [H|H].
  - split; [rewrite dec_one by lia; f_equal; lia|]. split; [discriminate|]. constructor; [lia|constructor].
  - pose proof (Z.div_mod z 10 ltac:(lia)) as Dm. pose proof (Z.mod_pos_bound z 10 ltac:(lia)) as Mb.
    replace (10 ^ Z.of_nat (S f))%Z with (10 * 10 ^ Z.of_nat f)%Z in * by (rewrite Nat2Z.inj_succ, Z.pow_succ_r by lia; reflexivity).
    destruct (IH (z / 10)%Z) as (H1 & H2 & H3).
    + split; [apply Z.div_pos; lia|apply Z.div_lt_upper_bound; lia].
    + destruct f; [cbn in Hz; lia|lia].
    + split; [rewrite dec_value_app, H1, dec_one by lia; f_equal; lia|]. split; [intros E; apply app_eq_nil in E; destruct E; discriminate|].
      apply Forall_app. split; [exact H3|]. constructor; [lia|constructor].
Qed.
Lemma log_fuel z : (0 <= z)%Z -> (z < 10 ^ Z.of_nat (S (Z.to_nat (Z.log2_up (z + 1)))))%Z.
Proof.
  intros H. rewrite Nat2Z.inj_succ, Z2Nat.id by apply Z.log2_up_nonneg. rewrite Z.pow_succ_r by apply Z.log2_up_nonneg.
  assert (H2 : (z + 1 <= 2 ^ Z.log2_up (z + 1))%Z) by (apply Z.log2_log2_up_spec; lia).
  assert (H3 : (2 ^ Z.log2_up (z + 1) <= 10 ^ Z.log2_up (z + 1))%Z) by (apply Z.pow_le_mono_l; lia). lia.
Qed.

(** rounding *)
Lemma round_close q : (Qabs (inject_Z (round_half_even q) - q) <= 1 # 2)%Q.
Proof.
  unfold round_half_even. pose proof (Qfloor_le q) as H1. pose proof (Qlt_floor q) as H2. rewrite inject_Z_plus in H2.
  destruct (q - inject_Z (Qfloor q) ?= 1 # 2)%Q eqn:E.
  - apply Qeq_alt in E. destruct (Z.even (Qfloor q)); rewrite ?inject_Z_plus; change (inject_Z 1) with 1%Q in *; apply Qabs_Qle_condition; split; lra.
  - apply Qlt_alt in E. change (inject_Z 1) with 1%Q in *. apply Qabs_Qle_condition; split; lra.
  - apply Qgt_alt in E. rewrite inject_Z_plus. change (inject_Z 1) with 1%Q in *. apply Qabs_Qle_condition; split; lra.
Qed.

Definition half17 : Q := (1 # 2) / inject_Z ten17.
Definition written (p : Q) : Q := let r := round_half_even (p * inject_Z ten17) in
  (inject_Z (r / ten17) + inject_Z (r mod ten17) / inject_Z (10 ^ 17))%Q.
Lemma written_eq p : (written p == inject_Z (round_half_even (p * inject_Z ten17)) / inject_Z ten17)%Q.
Proof.
  unfold written. set (r := round_half_even (p * inject_Z ten17)). pose proof (Z.div_mod r ten17 ltac:(discriminate)) as Dm.
  change (10 ^ 17)%Z with ten17. rewrite Dm at 3. rewrite inject_Z_plus, inject_Z_mult. field. unfold ten17. intros F. discriminate.
Qed.
Lemma ten17_pos : (0 < inject_Z ten17)%Q. Proof. reflexivity. Qed.
Lemma written_close p : (Qabs (written p - p) <= half17)%Q.
Proof.
  rewrite written_eq. pose proof (round_close (p * inject_Z ten17)) as H. apply Qabs_Qle_condition in H. pose proof ten17_pos as Ht. unfold half17.
  set (r := inject_Z (round_half_even (p * inject_Z ten17))) in *. set (t := inject_Z ten17) in *.
  assert (E : (r / t - p == (r - p * t) / t)%Q) by (field; lra). rewrite E. apply Qabs_Qle_condition. destruct H as [H1 H2].
  assert (En : (- ((1 # 2) / t) == (- (1 # 2)) / t)%Q) by (field; lra). rewrite En. unfold Qdiv. assert (Hi : (0 <= / t)%Q) by (apply Qinv_le_0_compat; lra).
  split; apply Qmult_le_compat_r; assumption.
Qed.
Lemma round_pos q : (1 # 2 < q)%Q -> (1 <= round_half_even q)%Z.
Proof.
  intros H. pose proof (round_close q) as Hc. apply Qabs_Qle_condition in Hc. assert (Hp : (0 < inject_Z (round_half_even q))%Q) by lra.
  change 0%Q with (inject_Z 0) in Hp. rewrite <- Zlt_Qlt in Hp. lia.
Qed.
Lemma round_nonneg q : (0 < q)%Q -> (0 <= round_half_even q)%Z.
Proof.
  intros H. unfold round_half_even. assert (Hf : (0 <= Qfloor q)%Z) by (change 0%Z with (Qfloor 0); apply Qfloor_resp_le; lra).
  destruct (_ ?= _)%Q; [destruct (Z.even _)| |]; lia.
Qed.
Lemma written_pos p : (half17 < p)%Q -> (0 < written p)%Q.
Proof.
  intros H. rewrite written_eq. pose proof ten17_pos as Ht. apply Qlt_shift_div_l; [exact Ht|]. rewrite Qmult_0_l. change 0%Q with (inject_Z 0). rewrite <- Zlt_Qlt.
  assert (1 <= round_half_even (p * inject_Z ten17))%Z; [|lia]. apply round_pos. unfold half17 in H.
  assert (E : (1 # 2 == (1 # 2) / inject_Z ten17 * inject_Z ten17)%Q) by (field; lra). rewrite E. apply Qmult_lt_compat_r; assumption.
Qed.
Lemma fmt17_parts p : (0 < p)%Q -> exists a b, fmt17 p = a ++ 46%N :: b /\ a <> [] /\ b <> [] /\ all_digits a /\ all_digits b /\ length b = 17 /\
  dec_value a 0 = Some (round_half_even (p * inject_Z ten17) / ten17)%Z /\ dec_value b 0 = Some (round_half_even (p * inject_Z ten17) mod ten17)%Z.
Proof.
  intros Hp. unfold fmt17. set (r := round_half_even (p * inject_Z ten17)).
  assert (Hr : (0 <= r)%Z) by (apply round_nonneg; apply Qmult_lt_0_compat; [exact Hp|reflexivity]).
  assert (Hq : (0 <= r / ten17)%Z) by (apply Z.div_pos; [exact Hr|reflexivity]). pose proof (Z.mod_pos_bound r ten17 ltac:(reflexivity)) as Hm.
  destruct (digits_Z_ok (S (Z.to_nat (Z.log2_up (r / ten17 + 1)))) (r / ten17)) as (H1 & H2 & H3); [split; [exact Hq|apply log_fuel; exact Hq]|lia|].
  exists (digits_Z (S (Z.to_nat (Z.log2_up (r / ten17 + 1)))) (r / ten17)), (digits_pad 17 (r mod ten17)). split; [reflexivity|]. split; [exact H2|].
  split; [intros E; apply (f_equal (@length char)) in E; rewrite digits_pad_length in E; discriminate|]. split; [exact H3|]. split; [apply digits_pad_digits|]. split; [apply digits_pad_length|].
  split; [exact H1|]. rewrite digits_pad_ok; [f_equal; lia|]. exact Hm.
Qed.
Lemma digits_no c s : all_digits s -> (c < 48 \/ 57 < c)%N -> ~ In c s.
Proof. intros H Hc F. unfold all_digits in H. rewrite Forall_forall in H. specialize (H c F). cbn in H. lia. Qed.
Lemma float_fmt U : udb_ok U -> forall p, (0 < p)%Q -> float_of_str (u_space U) (fmt17 p ++ [10%N]) = Ok (written p).
Proof.
  intros OK p Hp. destruct (fmt17_parts p Hp) as (a & b & E & Ha & Hb & Da & Db & Hl & Va & Vb). unfold float_of_str.
  assert (Hns : Forall (fun c => u_space U c = false) (fmt17 p)).
  { rewrite E. apply Forall_app. split; [apply digits_not_space; assumption|]. constructor; [rewrite (ok_space _ OK) by lia; reflexivity|apply digits_not_space; assumption]. }
  rewrite strip_trailing; [|exact Hns|rewrite E; destruct a; discriminate|rewrite (ok_space _ OK) by lia; reflexivity].
  rewrite E. rewrite split_chr_app by (apply digits_no; [exact Da|lia]). rewrite split_chr_none by (apply digits_no; [exact Db|lia]).
  destruct a as [|a0 a]; [congruence|]. destruct b as [|b0 b]; [congruence|]. rewrite !digits_val_dec, Va, Vb. unfold written. rewrite Hl. reflexivity.
Qed.
Lemma fmt17_no c p : (0 < p)%Q -> (c = 9 \/ c = 10)%N -> ~ In c (fmt17 p).
Proof.
  intros Hp Hc F. destruct (fmt17_parts p Hp) as (a & b & E & _ & _ & Da & Db & _). rewrite E in F. apply in_app_or in F.
  destruct F as [F|[F|F]]; [apply (digits_no c a) in F; [exact F|exact Da|lia]|lia|apply (digits_no c b) in F; [exact F|exact Db|lia]].
Qed.

(** ** lines *)
Definition line_of (np : ngram * Q) : str := ng_text (fst np) ++ 9%N :: str_of_nat (ng_count (fst np)) ++ 9%N :: fmt17 (snd np).
Definition clean (s : str) : Prop := ~ In 9%N s /\ ~ In 10%N s.
Lemma line_no_eol np : clean (ng_text (fst np)) -> (0 < snd np)%Q -> ~ In 10%N (line_of np).
Proof.
  intros [_ Hc] Hp F. unfold line_of in F. apply in_app_or in F. destruct F as [F|[F|F]]; [exact (Hc F)|discriminate|]. apply in_app_or in F.
  destruct F as [F|[F|F]]; [|discriminate|]; revert F; [apply digits_no; [apply str_of_nat_digits|lia]|apply fmt17_no; [exact Hp|auto]].
Qed.
Lemma file_lines_concat ls : Forall (fun l => ~ In 10%N l) ls -> file_lines (flat_map (fun l => l ++ [10%N]) ls) = map (fun l => l ++ [10%N]) ls.
Proof.
  intros H. unfold file_lines. assert (E : split_chr 10%N (flat_map (fun l => l ++ [10%N]) ls) = ls ++ [[]]).
  { induction H as [|l ls Hl _ IH]; [reflexivity|]. cbn [flat_map app]. rewrite <- app_assoc. cbn [app]. rewrite split_chr_app by exact Hl. rewrite IH. reflexivity. }
  rewrite E, removelast_last, last_last. rewrite app_nil_r. reflexivity.
Qed.

Section Load.
  Context (U : udb) (OK : udb_ok U) (L : Type) (log : Q -> res L) (Hlog : forall q, (0 < q)%Q -> exists l, log q = Ok l).
  Notation load_line := (load_line U Q L (float_of_str (u_space U)) log).
  Notation load_lm := (load_lm U Q L Qle_bool (float_of_str (u_space U)) log).
  Definition match_det (np : ngram * Q) (det : details Q L) : Prop :=
    d_count det = Z.of_nat (ng_count (fst np)) /\ (Qabs (d_proba det - snd np) <= half17)%Q /\ log (d_proba det) = Ok (d_logp det).
  Definition fine (np : ngram * Q) : Prop := clean (ng_text (fst np)) /\ 1 <= ng_count (fst np) /\ (half17 < snd np)%Q.
  Lemma half17_pos : (0 < half17)%Q. Proof. reflexivity. Qed.
  Lemma load_line_ok d np : fine np -> exists det, load_line 1 d (line_of np ++ [10%N]) = Ok (dset str_eqb (ng_text (fst np)) det d) /\ match_det np det.
  Proof.
    intros ([H9 _] & Hc & Hp). assert (Hp0 : (0 < snd np)%Q) by (eapply Qlt_trans; [exact half17_pos|exact Hp]). unfold MLangModel.load_line, line_of. rewrite <- app_assoc. cbn [app].
    rewrite split_chr_app by exact H9. rewrite <- app_assoc. cbn [app]. rewrite split_chr_app by (apply digits_no; [apply str_of_nat_digits|lia]).
    rewrite split_chr_none by (intros F; apply in_app_or in F; destruct F as [F|[F|[]]]; [revert F; apply fmt17_no; auto|discriminate]).
    rewrite (int_str U OK). cbn [rbind]. destruct (Z.leb_spec 1 (Z.of_nat (ng_count (fst np)))); [|lia]. rewrite (float_fmt U OK) by exact Hp0. cbn [rbind].
    destruct (Hlog (written (snd np)) (written_pos _ Hp)) as [l El]. rewrite El. cbn [rbind]. eexists. split; [reflexivity|]. split; [reflexivity|]. split; [apply written_close|exact El].
  Qed.
  Definition loaded (d : dict str (details Q L)) (ps : list (ngram * Q)) : Prop :=
    (forall text det, dget str_eqb text d = Some det -> exists np, In np ps /\ ng_text (fst np) = text /\ match_det np det) /\
    (forall np, In np ps -> exists det, dget str_eqb (ng_text (fst np)) d = Some det /\ match_det np det).
  Lemma load_lines_ok ps : Forall fine ps -> NoDup (map (fun np => ng_text (fst np)) ps) ->
    exists d, foldM (load_line 1) [] (map (fun np => line_of np ++ [10%N]) ps) = Ok d /\ loaded d ps.
  Proof.
    induction ps as [|np ps IH] using rev_ind; intros HF HN.
    - exists []. split; [reflexivity|]. split; [discriminate|intros np []].
    - apply Forall_app in HF. destruct HF as [HF1 HF2]. inversion HF2 as [|? ? Hnp _]; subst. rewrite map_app in HN. cbn [map] in HN.
      assert (HN1 : NoDup (map (fun np => ng_text (fst np)) ps)) by (apply NoDup_remove_1 in HN; rewrite app_nil_r in HN; exact HN).
      assert (HN2 : ~ In (ng_text (fst np)) (map (fun np => ng_text (fst np)) ps)).
      { intros F. apply NoDup_remove_2 in HN. apply HN. rewrite app_nil_r. exact F. }
      destruct (IH HF1 HN1) as (d & E & H1 & H2). rewrite map_app, foldM_app, E. cbn [rbind map foldM]. destruct (load_line_ok d np Hnp) as (det & -> & Hm). cbn [rbind].
      eexists. split; [reflexivity|]. split.
      + intros text det' Hg. rewrite (dget_dset _ str_eqb_ok) in Hg. destruct (str_eqb text (ng_text (fst np))) eqn:Et.
        * apply str_eqb_eq in Et. injection Hg as <-. exists np. split; [apply in_or_app; right; left; reflexivity|]. split; [congruence|exact Hm].
        * destruct (H1 text det' Hg) as (np' & Hin & Ht & Hm'). exists np'. split; [apply in_or_app; left; exact Hin|auto].
      + intros np' Hin. rewrite (dget_dset _ str_eqb_ok). apply in_app_or in Hin. destruct Hin as [Hin|[->|[]]].
        * destruct (str_eqb (ng_text (fst np')) (ng_text (fst np))) eqn:Et; [|apply H2; exact Hin]. apply str_eqb_eq in Et. exfalso. apply HN2. rewrite <- Et. apply in_map_iff. exists np'. auto.
        * rewrite str_eqb_refl. eauto.
  Qed.
  Lemma fold_files k : forall files d, length files = k ->
    foldM (fun d '(mc, lines) => load_file U Q L (float_of_str (u_space U)) log d mc lines) d (combine (repeat 1%Z k) files) = foldM (load_line 1) d (concat files).
  Proof.
    induction k as [|k IH]; intros [|f files] d H; try discriminate; [reflexivity|]. cbn [repeat combine foldM concat]. rewrite foldM_app. unfold load_file at 1.
    destruct (foldM (load_line 1) d f); [|reflexivity]. cbn [rbind]. apply IH. cbn in H. lia.
  Qed.
  Lemma load_files_ok pss : Forall fine (concat pss) -> NoDup (map (fun np => ng_text (fst np)) (concat pss)) ->
    exists m, load_lm (repeat 1%Z (length pss)) (map (fun ps => file_lines (flat_map (fun l => l ++ [10%N]) (map line_of ps))) pss) = Ok m /\ loaded (lm_details m) (concat pss).
  Proof.
    intros HF HN. destruct (load_lines_ok (concat pss) HF HN) as (d & E & Hd). unfold MLangModel.load_lm. rewrite fold_files by apply map_length.
    assert (Ec : concat (map (fun ps => file_lines (flat_map (fun l => l ++ [10%N]) (map line_of ps))) pss) = map (fun np => line_of np ++ [10%N]) (concat pss)).
    { clear - HF. induction pss as [|ps pss IH]; [reflexivity|]. cbn [concat map] in *. apply Forall_app in HF. destruct HF as [H1 H2]. rewrite IH by exact H2. rewrite map_app. f_equal.
      rewrite file_lines_concat; [apply map_map|]. apply Forall_forall. intros l Hl. apply in_map_iff in Hl. destruct Hl as (np & <- & Hnp). rewrite Forall_forall in H1. destruct (H1 np Hnp) as (Hc & _ & Hp).
      apply line_no_eol; [exact Hc|]. eapply Qlt_trans; [exact half17_pos|exact Hp]. }
    rewrite Ec, E. cbn [rbind]. eexists. split; [reflexivity|]. exact Hd.
  Qed.
End Load.
