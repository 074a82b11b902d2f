(** Proofs about batches of predictions (MBatch.v). *)
From Coq Require Import List NArith ZArith Arith Bool Lia.
From Verif Require Import PyBase Regex MUtils MTree MVector MParser MBatch SUtils STree SParser SVector SBatch SLangModel LBase LUtils LText LTree LVector LParser LParserCall.
Import ListNotations.
Local Open Scope nat_scope.

Section Argmax.
  Context {F : Type} (le : F -> F -> bool).
  Lemma argmax_from_lt l : forall best ib i, ib < i -> argmax_from le best ib i l < i + length l.
  Proof.
    induction l as [|x l IH]; intros best ib i H; cbn; [lia|]. destruct (le x best); [pose proof (IH best ib (S i)); lia|].
    destruct (le x x); [pose proof (IH x i (S i)); lia|lia].
  Qed.
  Lemma argmax_ok row : row <> [] -> exists k, argmax le row = Ok k /\ k < length row.
  Proof.
    destruct row as [|x l]; [contradiction|]. intros _. cbn. eexists. split; [reflexivity|]. destruct (le x x); [|lia].
    pose proof (argmax_from_lt l x 0 1 ltac:(lia)). lia.
  Qed.
  Lemma argmax_picked row : row <> [] -> argmax le row = Ok (picked F le row).
  Proof. intros H. destruct (argmax_ok row H) as (k & E & _). unfold picked. rewrite E. reflexivity. Qed.
  Lemma picked_lt row n : length row = S n -> picked F le row < S n.
  Proof. intros H. destruct (argmax_ok row) as (k & E & Hk); [intros ->; discriminate|]. unfold picked. rewrite E. lia. Qed.
  Lemma argmax_rows rows n : Forall (fun r : list F => length r = S n) rows -> mapM (argmax le) rows = Ok (map (picked F le) rows).
  Proof. intros H. apply mapM_total. intros r Hr. rewrite Forall_forall in H. apply argmax_picked. intros ->. discriminate (H [] Hr). Qed.

  Lemma argmax_from_spec (T : total_order le) l : forall pre best ib,
    nth_error pre ib = Some best -> (forall j q, nth_error pre j = Some q -> le q best = true) ->
    (forall j q, j < ib -> nth_error pre j = Some q -> le best q = false) ->
    most_probable le (pre ++ l) (argmax_from le best ib (length pre) l).
  Proof.
    destruct T as [Tt Tr]. induction l as [|x l IH]; intros pre best ib Hb H1 H2; cbn.
    - rewrite app_nil_r. exists best. auto.
    - assert (Lb : ib < length pre) by (apply nth_error_Some; congruence).
      replace (pre ++ x :: l) with ((pre ++ [x]) ++ l) by (rewrite <- app_assoc; reflexivity).
      replace (S (length pre)) with (length (pre ++ [x])) by (rewrite app_length; cbn; lia).
      assert (HN : forall j q, nth_error (pre ++ [x]) j = Some q -> nth_error pre j = Some q \/ j = length pre /\ q = x).
      { intros j q E. destruct (Nat.lt_ge_cases j (length pre)) as [Hj|Hj]; [rewrite nth_error_app1 in E by exact Hj; auto|].
        rewrite nth_error_app2 in E by exact Hj. destruct (j - length pre) as [|[|]] eqn:Ej; cbn in E; try discriminate. injection E as <-. right. split; [lia|reflexivity]. }
      destruct (le x best) eqn:Ex.
      + apply IH; [rewrite nth_error_app1; assumption| |].
        * intros j q E. destruct (HN j q E) as [E'|[-> ->]]; eauto.
        * intros j q Hj E. destruct (HN j q E) as [E'|[-> ->]]; [eauto|lia].
      + assert (Exx : le x x = true) by (destruct (Tt x x); assumption). rewrite Exx.
        assert (Hbx : le best x = true) by (destruct (Tt x best); congruence). apply IH.
        * rewrite nth_error_app2, Nat.sub_diag by lia. reflexivity.
        * intros j q E. destruct (HN j q E) as [E'|[-> ->]]; [|exact Exx]. eapply Tr; eauto.
        * intros j q Hj E. destruct (HN j q E) as [E'|[-> ->]]; [|lia]. destruct (le x q) eqn:Eq; [|reflexivity]. rewrite (Tr x q best Eq (H1 j q E')) in Ex. discriminate.
  Qed.
  Lemma argmax_spec row k : total_order le -> argmax le row = Ok k <-> most_probable le row k.
  Proof.
    intros T. assert (HS : forall k, argmax le row = Ok k -> most_probable le row k).
    { clear k. intros k E. destruct row as [|x l]; [discriminate|]. cbn in E. destruct (le x x) eqn:Ex; [|destruct T as [Tt _]; destruct (Tt x x); congruence].
      injection E as <-. apply (argmax_from_spec T l [x] x 0); [reflexivity| |intros j q Hj; lia]. intros [|[|]] q E; cbn in E; congruence. }
    split; [apply HS|]. intros (p & E & H1 & H2). assert (Hne : row <> []) by (intros ->; destruct k; discriminate).
    destruct (argmax_ok row Hne) as (k' & E' & _). rewrite E'. f_equal. destruct (HS k' E') as (p' & E2 & H1' & H2').
    destruct (Nat.lt_trichotomy k k') as [Hl|[He|Hl]]; [|auto|].
    - pose proof (H2' k p Hl E) as X. rewrite (H1 k' p' E2) in X. discriminate.
    - pose proof (H2 k' p' Hl E2) as X. rewrite (H1' k p E) in X. discriminate.
  Qed.
  (** the first value that is not a number *)
  Lemma argmax_from_nan l : forall best ib i j, (forall k x, nth_error l k = Some x -> k < j -> le x x = true) ->
    (forall k x y, nth_error l k = Some y -> le y y = false -> le y x = false) ->
    (exists x, nth_error l j = Some x /\ le x x = false) -> argmax_from le best ib i l = i + j.
  Proof.
    induction l as [|x l IH]; intros best ib i j Hn Hc (y & Ej & Hy); [destruct j; discriminate|]. cbn. destruct j as [|j].
    - cbn in Ej. injection Ej as ->. rewrite (Hc 0 best y eq_refl Hy), Hy. lia.
    - pose proof (Hn 0 x eq_refl ltac:(lia)) as Hx. rewrite Hx. cbn in Ej.
      assert (G : forall b k, argmax_from le b k (S i) l = S i + j).
      { intros b k. apply IH; [|intros k' x' y' E H; apply (Hc (S k') x' y' E H)|eauto]. intros k' x' E H. apply (Hn (S k') x' E). lia. }
      destruct (le x best); rewrite G; lia.
  Qed.
End Argmax.

Lemma NoDup_halves {A} (a b : list A) : NoDup (a ++ b) -> NoDup a /\ NoDup b.
Proof.
  induction a as [|x a IH]; cbn; intros H; [split; [constructor|exact H]|]. inversion H as [|? ? H1 H2]; subst. destruct (IH H2) as [Ha Hb]. split; [|exact Hb].
  constructor; [|exact Ha]. intros Hin. apply H1. apply in_or_app. left. exact Hin.
Qed.
Lemma mapM_map {A B C} (f : B -> res C) (g : A -> B) l : mapM f (map g l) = mapM (fun x => f (g x)) l.
Proof. induction l as [|x l IH]; cbn; [reflexivity|]. rewrite IH. reflexivity. Qed.
Lemma foldM_enum {A S} (f : S -> nat -> A -> res S) (batch : list nat) (codes : list A) : length codes = length batch -> forall pre s,
  foldM (fun its '(idx, code) => let! pos := of_option IndexError (nth_error (pre ++ batch) idx) in f its pos code) s (enum_from (length pre) codes)
  = foldM (fun its '(pos, code) => f its pos code) s (combine batch codes).
Proof.
  revert codes; induction batch as [|b batch IH]; intros [|c codes] L pre s; try discriminate; [reflexivity|]. cbn [enum_from combine foldM].
  rewrite nth_error_app2, Nat.sub_diag by lia. cbn [nth_error of_option rbind]. destruct (f s b c) as [s'|e]; cbn [rbind]; [|reflexivity].
  specialize (IH codes ltac:(cbn in L; lia) (pre ++ [b]) s'). rewrite <- app_assoc in IH. cbn [app] in IH. rewrite app_length in IH. cbn in IH.
  replace (length pre + 1) with (Datatypes.S (length pre)) in IH by lia. exact IH.
Qed.

Lemma Ok_same {A} (a b : A) : Ok a = Ok b -> a = b.
Proof. congruence. Qed.

Section Batches.
  Context (V F : Type) (v0 : V) (U : udb) (le : F -> F -> bool) (N : networks V F) (S1 : sentence_networks V F) (cs : charset) (ws : wordset V).
  Hypothesis HS : shapes_ok V F S1.
  Hypothesis HR : rowwise V F (charset_len cs) N S1.
  Hypothesis HC : charset_ok cs.
  Hypothesis HW : ws_ok V ws.
  Notation M := (models_of V F le S1).

  Lemma models_of_ok : models_ok V M.
  Proof.
    constructor; cbn.
    - intros c w. destruct (sh_tags _ _ _ HS c w) as [L HF]. split; [rewrite map_length; exact L|]. apply Forall_forall. intros x Hx.
      apply in_map_iff in Hx. destruct Hx as (r & <- & Hr). rewrite Forall_forall in HF. apply picked_lt. apply HF. exact Hr.
    - intros t c w. destruct (sh_deps _ _ _ HS t c w) as [L HF]. split; [rewrite map_length; exact L|]. apply Forall_forall. intros x Hx.
      apply in_map_iff in Hx. destruct Hx as (r & <- & Hr). rewrite Forall_forall in HF. apply picked_lt. apply HF. exact Hr.
    - intros. apply picked_lt. apply (sh_trans _ _ _ HS).
  Qed.
  Definition mats_good (d : mats V) : Prop := char_matrix (charset_len cs) (m_chars d) /\ word_matrix (m_words d).
  Definition item_good (i : item V) : Prop := code_row 17 (i_tag_codes i) /\ code_row 25 (i_dep_codes i) /\ mats_good (i_mats i).
  Lemma vectorized_good tokens d : vectorize_sentence V v0 U cs ws tokens = Ok d -> mats_good d.
  Proof.
    intros E. destruct (Nat.le_gt_cases (length tokens) MAX_SENT_LENGTH) as [Hl|Hl]; [|rewrite vectorize_long in E by exact Hl; discriminate].
    rewrite (vectorize_ok V v0 U cs ws tokens HW Hl) in E. apply Ok_same in E. subst d. unfold MAX_SENT_LENGTH in Hl.
    assert (HL : length (BOS :: tokens ++ [EOS]) = length tokens + 2) by (cbn [length]; rewrite app_length; cbn [length]; lia).
    unfold mats_good, char_matrix, word_matrix. cbn [m_chars m_words]. split; (split; [rewrite app_length, map_length, HL, repeat_length; lia|]); apply Forall_app; split; apply Forall_forall; intros row Hr.
    - apply in_map_iff in Hr. destruct Hr as (w & <- & _). split; [apply row_length|]. apply Forall_forall. intros x. apply row_bound. exact HC.
    - apply repeat_spec in Hr. subst. split; [apply repeat_length|]. apply Forall_forall. intros x Hx. apply repeat_spec in Hx. subst. unfold charset_len. lia.
    - apply in_map_iff in Hr. destruct Hr as (w & <- & _). apply word_vector_length. exact HW.
    - apply repeat_spec in Hr. subst. apply repeat_length.
  Qed.
  Lemma vectorized_all tls ms : mapM (vectorize_sentence V v0 U cs ws) tls = Ok ms -> Forall mats_good ms.
  Proof. intros E. apply mapM_Ok_Forall2 in E. induction E; constructor; [eapply vectorized_good; eassumption|assumption]. Qed.
  Lemma make_item_good d i : mats_good d -> make_item V M d = Ok i -> item_good i.
  Proof.
    intros Hd E. unfold make_item in E. apply rbind_Ok in E. destruct E as (p & _ & E). injection E as <-. unfold item_good. cbn [i_tag_codes i_dep_codes i_mats].
    destruct models_of_ok as [H1 H2 _]. split; [exact (H1 _ _)|]. split; [exact (H2 _ _ _)|exact Hd].
  Qed.
  Lemma make_items_good bs its : Forall mats_good (concat bs) -> mapM (mapM (make_item V M)) bs = Ok its -> Forall item_good (concat its).
  Proof.
    intros Hb E. apply mapM_Ok_Forall2 in E. induction E as [|b it bs its E _ IH]; [constructor|]. cbn [concat] in *. apply Forall_app in Hb. destruct Hb as [Hb Hbs]. apply Forall_app. split; [|auto].
    apply mapM_Ok_Forall2 in E. clear - HS E Hb. induction E as [|d i b it E _ IH]; [constructor|]. inversion_clear Hb. constructor; [eapply make_item_good; eassumption|auto].
  Qed.
  Lemma step_good items pos items' : Forall item_good items -> step_at V M items pos = Ok items' -> Forall item_good items'.
  Proof.
    intros Hi E. unfold step_at in E. destruct (nth_error items pos) as [i|] eqn:Ei; [|discriminate]. cbn [of_option rbind] in E. apply rbind_Ok in E. destruct E as (i' & Es & E). injection E as <-.
    assert (Gi : item_good i) by (rewrite Forall_forall in Hi; apply Hi; exact (nth_error_In _ _ Ei)).
    apply Forall_app. split; [|constructor].
    - apply Forall_forall. intros x Hx. rewrite Forall_forall in Hi. apply Hi. rewrite <- (firstn_skipn pos items). apply in_or_app. left. exact Hx.
    - unfold item_step in Es. apply rbind_Ok in Es. destruct Es as (s & _ & Es). apply rbind_Ok in Es. destruct Es as (b & _ & Es). apply rbind_Ok in Es. destruct Es as (m & _ & Es). apply rbind_Ok in Es. destruct Es as (p' & _ & Es). injection Es as <-. exact Gi.
    - apply Forall_forall. intros x Hx. rewrite Forall_forall in Hi. apply Hi. change (match items with [] => [] | _ :: l0 => skipn pos l0 end) with (skipn (Datatypes.S pos) items) in Hx. rewrite <- (firstn_skipn (Datatypes.S pos) items). apply in_or_app. right. exact Hx.
  Qed.
  Lemma steps_good batch : forall items items', Forall item_good items -> foldM (step_at V M) items batch = Ok items' -> Forall item_good items'.
  Proof. induction batch as [|b batch IH]; intros items items' Hi E; cbn [foldM] in E; [injection E as <-; exact Hi|]. apply rbind_Ok in E. destruct E as (its & E1 & E2). eapply IH; [eapply step_good; eassumption|exact E2]. Qed.
  Lemma make_mask_one i m : make_mask i = Ok m -> one_true m.
  Proof. unfold make_mask. destruct (Nat.ltb_spec i PADDED_SENT_LENGTH) as [Hi|]; [|discriminate]. intros E. apply Ok_same in E. subst m. exists i. split; [exact Hi|]. replace (PADDED_SENT_LENGTH - i - 1) with (51 - i) by (unfold PADDED_SENT_LENGTH, MAX_SENT_LENGTH in *; lia). reflexivity. Qed.
  Lemma item_masks_one i m : item_masks V i = Ok m -> one_true (fst m) /\ one_true (snd m).
  Proof.
    unfold item_masks. intros E. apply rbind_Ok in E. destruct E as (s & _ & E). apply rbind_Ok in E. destruct E as (b & _ & E). unfold make_masks in E. apply rbind_Ok in E. destruct E as (m1 & E1 & E). apply rbind_Ok in E. destruct E as (m2 & E2 & E). injection E as <-.
    split; eapply make_mask_one; eassumption.
  Qed.
  Lemma map_ne {A B} (f : A -> B) l : l <> [] -> map f l <> [].
  Proof. destruct l; [congruence|discriminate]. Qed.
  Lemma predict_tags_ok (batch : list (mats V)) : batch <> [] -> Forall mats_good batch ->
    predict_tags V F le N (map m_chars batch) (map m_words batch) = Ok (map (fun d => ptags_model M (m_chars d) (m_words d)) batch).
  Proof.
    intros Hne Hg. unfold predict_tags. pose proof (row_tags _ _ _ _ _ HR (map (fun d => (m_chars d, m_words d)) batch) (map_ne _ _ Hne)) as E. rewrite !map_map in E. cbn [fst snd] in E. rewrite (E ltac:(apply Forall_map; exact Hg) : net_tags N (map m_chars batch) (map m_words batch) = _). cbn [rbind].
    rewrite mapM_map. apply mapM_total. intros d _. apply (argmax_rows le _ 16). apply (sh_tags _ _ _ HS).
  Qed.
  Lemma predict_deps_ok (batch : list (mats V)) (f : mats V -> list nat) : batch <> [] -> Forall mats_good batch -> (forall d, code_row 17 (f d)) ->
    predict_deps V F le N (map f batch) (map m_chars batch) (map m_words batch) = Ok (map (fun d => pdeps_model M (f d) (m_chars d) (m_words d)) batch).
  Proof.
    intros Hne Hg Hf. unfold predict_deps. pose proof (row_deps _ _ _ _ _ HR (map (fun d => (f d, m_chars d, m_words d)) batch) (map_ne _ _ Hne)) as E. rewrite !map_map in E.
    rewrite (E ltac:(apply Forall_map; eapply Forall_impl; [|exact Hg]; cbn beta iota; intros d Hd; split; [apply Hf|exact Hd]) : net_deps N (map f batch) (map m_chars batch) (map m_words batch) = _). cbn [rbind].
    rewrite mapM_map. apply mapM_total. intros d _. apply (argmax_rows le _ 24). apply (sh_deps _ _ _ HS).
  Qed.
  Lemma mapM_enum {A B} (g : nat * A -> res B) (h : A -> res B) (l : list A) :
    (forall i x, nth_error l i = Some x -> g (i, x) = h x) -> mapM g (enumerate l) = mapM h l.
  Proof.
    intros H. unfold enumerate. rewrite <- (enum_from_snd 0 l) at 2. rewrite mapM_map. apply mapM_ext_in. intros [i x] Hi. apply In_enum_from in Hi. destruct Hi as [_ Hi].
    rewrite Nat.sub_0_r in Hi. apply H. exact Hi.
  Qed.
  Lemma batch_items_ok batch : batch <> [] -> Forall mats_good batch -> batch_items V F le N batch = mapM (make_item V M) batch.
  Proof.
    intros Hne Hg. unfold batch_items. destruct batch as [|d0 batch0] eqn:EB; [contradiction|]. rewrite <- EB in *. clear EB d0 batch0.
    rewrite predict_tags_ok by assumption. cbn [rbind]. rewrite predict_deps_ok; [|assumption|assumption|intros d; apply (ok_tags _ _ models_of_ok)]. cbn [rbind]. apply mapM_enum. intros i d E.
    rewrite !nth_error_map, E. reflexivity.
  Qed.
  Lemma batches_items_ok batches : (forall b, In b batches -> b <> []) -> Forall mats_good (concat batches) -> mapM (batch_items V F le N) batches = mapM (mapM (make_item V M)) batches.
  Proof.
    intros H Hg. apply mapM_ext_in. intros b Hb. apply batch_items_ok; [auto|]. rewrite Forall_forall in *. intros d Hd. apply Hg. apply in_concat. eauto.
  Qed.

  Definition code_of (i : item V) (m : list bool * list bool) : nat :=
    trans_model M (i_tag_codes i) (i_dep_codes i) (m_chars (i_mats i)) (m_words (i_mats i)) (fst m) (snd m).
  Lemma predict_trans_ok (l : list (item V * (list bool * list bool))) : l <> [] -> Forall (fun x => item_good (fst x) /\ one_true (fst (snd x)) /\ one_true (snd (snd x))) l ->
    predict_trans V F le N (map (fun x => i_tag_codes (fst x)) l) (map (fun x => i_dep_codes (fst x)) l) (map (fun x => m_chars (i_mats (fst x))) l)
      (map (fun x => m_words (i_mats (fst x))) l) (map (fun x => fst (snd x)) l) (map (fun x => snd (snd x)) l) = Ok (map (fun x => code_of (fst x) (snd x)) l).
  Proof.
    intros Hne Hg. unfold predict_trans. pose proof (row_trans _ _ _ _ _ HR (map (fun x : item V * (list bool * list bool) =>
      (i_tag_codes (fst x), i_dep_codes (fst x), m_chars (i_mats (fst x)), m_words (i_mats (fst x)), fst (snd x), snd (snd x))) l) (map_ne _ _ Hne)) as E.
    rewrite !map_map in E. rewrite E by (apply Forall_map; eapply Forall_impl; [|exact Hg]; cbn beta iota; unfold item_good, mats_good; tauto). cbn [rbind]. rewrite mapM_map. apply mapM_total. intros x _. apply argmax_picked. intros E0.
    pose proof (sh_trans _ _ _ HS (i_tag_codes (fst x)) (i_dep_codes (fst x)) (m_chars (i_mats (fst x))) (m_words (i_mats (fst x))) (fst (snd x)) (snd (snd x))) as L. rewrite E0 in L. discriminate.
  Qed.
  Lemma steps_split batch : NoDup batch -> forall items items', foldM (step_at V M) items batch = Ok items' ->
    exists l, mapM (fun pos => of_option IndexError (nth_error items pos)) batch = Ok (map fst l) /\ mapM (item_masks V) (map fst l) = Ok (map snd l) /\
      foldM (fun its '(pos, code) => register_at V its pos code) items (combine batch (map (fun x => code_of (fst x) (snd x)) l)) = Ok items'.
  Proof.
    induction 1 as [|pos batch Hn Hnd IH]; intros items items' E.
    - exists []. cbn in *. auto.
    - cbn [foldM] in E. apply rbind_Ok in E. destruct E as (its1 & E1 & E). unfold step_at in E1. destruct (nth_error items pos) as [i|] eqn:Ei; [|discriminate].
      cbn [of_option rbind] in E1. apply rbind_Ok in E1. destruct E1 as (i' & Es & E1). injection E1 as <-.
      unfold item_step in Es. apply rbind_Ok in Es. destruct Es as (s & Hs & Es). apply rbind_Ok in Es. destruct Es as (b & Hb & Es). apply rbind_Ok in Es. destruct Es as (m & Hm & Es).
      apply rbind_Ok in Es. destruct Es as (p' & Hp & Es). injection Es as <-.
      destruct (IH _ _ E) as (l & L1 & L2 & L3). exists ((i, m) :: l). cbn [map fst snd mapM combine foldM].
      assert (Hpos : pos < length items) by (apply nth_error_Some; congruence).
      rewrite Ei. cbn [of_option rbind].
      assert (Hex : forall j k, In k batch -> of_option IndexError (nth_error items k) = of_option IndexError (nth_error (firstn pos items ++ j :: skipn (Datatypes.S pos) items) k)).
      { intros j k Hk. f_equal. symmetry. apply set_nth_other; [exact Hpos|intros <-; contradiction]. }
      change (match items with [] => [] | _ :: l0 => skipn pos l0 end) with (skipn (Datatypes.S pos) items) in *.
      match type of L1 with context [cons ?j (skipn _ items)] => rewrite (mapM_ext_in _ _ batch (Hex j)) end.
      rewrite L1. cbn [rbind]. split; [reflexivity|]. unfold item_masks at 1. rewrite Hs. cbn [rbind]. rewrite Hb. cbn [rbind]. rewrite Hm. cbn [rbind]. rewrite L2. cbn [rbind]. split; [reflexivity|].
      unfold register_at at 1. rewrite Ei. cbn [of_option rbind]. unfold code_of at 1. rewrite Hp. cbn [rbind]. exact L3.
  Qed.
  Lemma predict_transitions_ok batch items items' : batch <> [] -> NoDup batch -> Forall item_good items -> foldM (step_at V M) items batch = Ok items' ->
    predict_transitions V F le N items batch = Ok items'.
  Proof.
    intros Hne Hnd Hi E. destruct (steps_split batch Hnd items items' E) as (l & L1 & L2 & L3). unfold predict_transitions.
    assert (Hl : l <> []) by (intros ->; apply mapM_length in L1; destruct batch; [contradiction|discriminate]).
    assert (Hg : Forall (fun x => item_good (fst x) /\ one_true (fst (snd x)) /\ one_true (snd (snd x))) l).
    { assert (G1 : Forall item_good (map fst l)).
      { clear - L1 Hi. revert L1. generalize (map fst l) as is. intros is E. apply mapM_Ok_Forall2 in E. induction E as [|pos i b is E _ IH]; constructor; [|assumption].
        destruct (nth_error items pos) as [j|] eqn:Ej; [|discriminate]. injection E as <-. rewrite Forall_forall in Hi. apply Hi. exact (nth_error_In _ _ Ej). }
      clear - G1 L2. apply mapM_Ok_Forall2 in L2. induction l as [|[i m] l IH]; [constructor|]. cbn [map fst snd] in *. inversion_clear G1. inversion_clear L2. constructor; [|auto]. split; [assumption|]. eapply item_masks_one. eassumption. }
    destruct batch as [|b0 batch0] eqn:EB; [contradiction|]. rewrite <- EB in *. clear EB b0 batch0 Hne. rewrite L1. cbn [rbind]. rewrite L2. cbn [rbind]. rewrite !map_map.
    rewrite predict_trans_ok by assumption. cbn [rbind]. unfold enumerate.
    rewrite (foldM_enum (register_at V) batch (map (fun x => code_of (fst x) (snd x)) l)) with (pre := []); [exact L3|].
    rewrite map_length. pose proof (mapM_length _ _ _ L1) as L. rewrite map_length in L. exact L.
  Qed.
  Lemma batches_ok batches : (forall b, In b batches -> b <> []) -> NoDup (concat batches) -> forall items items', Forall item_good items ->
    foldM (fun its batch => foldM (step_at V M) its batch) items batches = Ok items' -> foldM (predict_transitions V F le N) items batches = Ok items'.
  Proof.
    induction batches as [|b batches IH]; intros Hne Hnd items items' Hi E; [exact E|]. cbn [foldM concat] in *. apply rbind_Ok in E. destruct E as (its & E1 & E2).
    rewrite (predict_transitions_ok b items its); [|apply Hne; left; reflexivity|exact (proj1 (NoDup_halves _ _ Hnd))|exact Hi|exact E1]. cbn [rbind].
    apply IH; [intros; apply Hne; right; assumption|exact (proj2 (NoDup_halves _ _ Hnd))|exact (steps_good b items its Hi E1)|exact E2].
  Qed.
  Lemma batches_good batches : forall items items', Forall item_good items -> foldM (fun its batch => foldM (step_at V M) its batch) items batches = Ok items' -> Forall item_good items'.
  Proof. induction batches as [|b batches IH]; intros items items' Hi E; cbn [foldM] in E; [injection E as <-; exact Hi|]. apply rbind_Ok in E. destruct E as (its & E1 & E2). eapply IH; [eapply steps_good; eassumption|exact E2]. Qed.
  Lemma batched_loop_ok bsz : 1 <= bsz -> forall fuel items items', Forall item_good items -> transition_loop V M fuel (Z.of_nat bsz) items = Ok items' ->
    batched_loop V F le N fuel (Z.of_nat bsz) items = Ok items'.
  Proof.
    intros Hb. induction fuel as [|f IH]; intros items items' Hi E; cbn [transition_loop batched_loop] in *; destruct (incomplete V items) as [|k ks] eqn:EI; try assumption.
    rewrite <- EI in E |- *. destruct (make_batches_spec (incomplete V items) bsz Hb) as (bs & Eb & Ec & Hbs). rewrite Eb in E |- *. cbn [rbind] in E |- *.
    apply rbind_Ok in E. destruct E as (its & E1 & E2). rewrite (batches_ok bs) with (items' := its); [cbn [rbind]; apply IH; [exact (batches_good bs items its Hi E1)|exact E2]| | |exact Hi|exact E1].
    - intros b Hin. destruct Hbs as [Hbs _]. intros ->. specialize (Hbs [] Hin). cbn in Hbs. lia.
    - rewrite Ec. apply incomplete_nodup.
  Qed.
  Lemma batched_call_ok nb bsz tls r : (1 <= nb)%Z -> 1 <= bsz -> (Z.of_nat (length tls) <= 2 ^ 53)%Z -> (forall tokens, In tokens tls -> length tokens <= MAX_SENT_LENGTH) ->
    parser_call V v0 U M cs ws nb (Z.of_nat bsz) tls = Ok r -> batched_call V F v0 U le N cs ws nb (Z.of_nat bsz) tls = Ok r.
  Proof.
    intros Hn Hb HL Hlen E. unfold parser_call in E. unfold batched_call.
    assert (EM : exists ms, mapM (vectorize_sentence V v0 U cs ws) tls = Ok ms).
    { clear - HW Hlen. induction tls as [|t tls IH]; [exists []; reflexivity|]. destruct IH as (ms & IH); [intros; apply Hlen; right; assumption|]. cbn. rewrite (vectorize_ok V v0 U cs ws t HW); [|apply Hlen; left; reflexivity]. cbn [rbind]. rewrite IH. cbn [rbind]. eauto. }
    destruct EM as (ms & EM). pose proof (vectorized_all _ _ EM) as Hg. rewrite (run_multithreads_total _ _ _ _ Hn HL EM) in *. cbn [rbind] in *.
    destruct (make_batches_spec ms bsz Hb) as (bs & Eb & Ec & Hbs). rewrite Eb in *. cbn [rbind] in *. apply rbind_Ok in E. destruct E as (its & E1 & E). rewrite <- Ec in Hg.
    rewrite batches_items_ok; [rewrite E1; cbn [rbind]| |exact Hg].
    2:{ intros b Hin. destruct Hbs as [Hbs _]. intros ->. specialize (Hbs [] Hin). cbn in Hbs. lia. }
    apply rbind_Ok in E. destruct E as (done & E2 & E). rewrite (batched_loop_ok bsz Hb _ _ _ (make_items_good bs its Hg E1) E2). exact E.
  Qed.
  Lemma batched_tag_ok tls : batched_tag V F v0 U le N cs ws tls = tagger_tag V v0 U cs ws (ptags_model M) tls.
  Proof.
    unfold batched_tag, tagger_tag. destruct (mapM (vectorize_sentence V v0 U cs ws) tls) as [data|e] eqn:ED; [|reflexivity]. cbn [rbind]. apply vectorized_all in ED.
    destruct data as [|d0 data0] eqn:EB; [reflexivity|]. rewrite <- EB in *. assert (Hne : data <> []) by (rewrite EB; discriminate). clear EB d0 data0. rewrite predict_tags_ok by assumption. cbn [rbind]. apply mapM_enum. intros i d E.
    rewrite nth_error_map, E. reflexivity.
  Qed.
End Batches.
