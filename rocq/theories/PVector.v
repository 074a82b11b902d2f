(** Properties C29-C31: vectorization and the tagger (syntax/vectorizer.py, syntax/tagger.py). *)
From Coq Require Import Ascii String.
From Coq Require Import List NArith ZArith Arith Bool Lia Permutation.
From Verif Require Import PyBase Regex MUtils MTree MVector MParser SUtils SVector LBase LText LUtils LParser LVector.
Import ListNotations.
Local Open Scope nat_scope.

Lemma in_chars (c : char) l : existsb (N.eqb c) l = true -> In c l.
Proof. intros H. apply existsb_exists in H. destruct H as (x & Hx & E). apply N.eqb_eq in E. subst. exact Hx. Qed.

(** * C29: refuted. One extra tag is returned for the closing delimiter and, under 50 tokens, one for the padding. *)
Theorem C29_refuted : exists tags, tagger_tag unit tt ascii_udb [] [] (fun _ _ => repeat 0 52) [[lit "a"]] = Ok [tags] /\ length tags = 3.
Proof. eexists. split; vm_compute; reflexivity. Qed.
(** What holds: the first tags are those predicted for the tokens, in their order. Missing: that no other
    tag follows; in fact every sentence of n tokens gets min (n + 2) 51 of them. *)
Theorem C29_partial : forall V v0 U cs ws ptags token_lists, ws_ok V ws ->
  (forall chars words, length (ptags chars words) = 52 /\ Forall (fun c => c < length all_tags) (ptags chars words)) ->
  token_lists <> [] -> (forall tokens, In tokens token_lists -> length tokens <= 50) ->
  exists taglists, tagger_tag V v0 U cs ws ptags token_lists = Ok taglists /\
    Forall2 (fun tokens tags => length tags = Nat.min (length tokens + 2) 51 /\
      exists d, vectorize_sentence V v0 U cs ws tokens = Ok d /\
        forall i, i < length tokens -> exists code t, nth_error (ptags (m_chars d) (m_words d)) (i + 1) = Some code /\
          tag_of_code code = Ok t /\ nth_error tags i = Some t) token_lists taglists.
Proof.
  intros V v0 U cs ws ptags tls HW HP Hne Hl. unfold tagger_tag.
  set (vec := fun tokens => {| m_length := length tokens + 2;
      m_chars := map (row_spec (char_code cs)) (BOS :: tokens ++ [EOS]) ++ repeat (repeat 0 22) (50 - length tokens);
      m_words := map (word_vector V v0 U ws) (BOS :: tokens ++ [EOS]) ++ repeat (repeat v0 100) (50 - length tokens) |}).
  assert (E : mapM (vectorize_sentence V v0 U cs ws) tls = Ok (map vec tls)).
  { clear Hne. induction tls as [|t tls IH]; [reflexivity|]. cbn [mapM map]. rewrite vectorize_ok by (auto; apply Hl; left; reflexivity). cbn [rbind].
    rewrite IH by (intros; apply Hl; right; assumption). reflexivity. }
  rewrite E. cbn [rbind]. destruct tls as [|t0 tls0]; [congruence|]. clear E Hne.
  change (map vec (t0 :: tls0)) with (vec t0 :: map vec tls0). cbv beta iota. change (vec t0 :: map vec tls0) with (map vec (t0 :: tls0)).
  generalize dependent (t0 :: tls0). clear t0 tls0. intros tls Hl.
  induction tls as [|tokens tls IH]; [exists []; split; [reflexivity|constructor]|].
  destruct IH as (tags & E & HF); [intros; apply Hl; right; assumption|].
  cbn [map mapM]. pose proof (Hl tokens (or_introl eq_refl)) as Hlen.
  set (d := vec tokens) in *. set (codes := ptags (m_chars d) (m_words d)).
  assert (Hslice : slice (Some 1%Z) (Some (Z.of_nat (m_length d) + 1)%Z) codes = firstn (length tokens + 2) (skipn 1 codes)).
  { replace (Z.of_nat (m_length d) + 1)%Z with (Z.of_nat (length tokens + 3)) by (subst d; cbn [m_length vec]; lia). change 1%Z with (Z.of_nat 1). rewrite slice_nat.
    replace (length tokens + 3 - 1) with (length tokens + 2) by lia. reflexivity. }
  rewrite Hslice. destruct (HP (m_chars d) (m_words d)) as [HL HB]. fold codes in HL, HB.
  destruct (mapM tag_of_code (firstn (length tokens + 2) (skipn 1 codes))) as [ts|e] eqn:Ets.
  - cbn [rbind]. rewrite E. cbn [rbind]. exists (ts :: tags). split; [reflexivity|]. constructor; [|exact HF].
    apply mapM_Ok_Forall2 in Ets. split.
    + apply Forall2_len in Ets. rewrite <- Ets, firstn_length, skipn_length, HL. lia.
    + exists d. split; [apply vectorize_ok; auto|]. intros i Hi. fold codes.
      destruct (nth_error codes (i + 1)) as [code|] eqn:Ec; [|apply nth_error_None in Ec; unfold codes in *; lia].
      assert (Ec' : nth_error (firstn (length tokens + 2) (skipn 1 codes)) i = Some code).
      { rewrite nth_error_firstn_lt, nth_error_skipn_add by lia. rewrite Nat.add_comm. exact Ec. }
      exists code. clear - Ets Ec'. revert i Ec'. induction Ets as [|c t cs' ts' H _ IH]; intros [|i] Ec; cbn in *; try discriminate.
      * injection Ec as <-. exists t. auto.
      * destruct (IH i Ec) as (t' & H1 & H2 & H3). exists t'. auto.
  - exfalso. assert (HB' : Forall (fun c => exists t, tag_of_code c = Ok t) (firstn (length tokens + 2) (skipn 1 codes))).
    { apply Forall_forall. intros c Hc. rewrite Forall_forall in HB. assert (Hb : c < length all_tags).
      { apply HB. rewrite <- (firstn_skipn 1 codes). apply in_or_app. right. rewrite <- (firstn_skipn (length tokens + 2) (skipn 1 codes)). apply in_or_app. left. exact Hc. }
      unfold tag_of_code. destruct (nth_error all_tags c) eqn:Ec; [eexists; reflexivity|]. apply nth_error_None in Ec. lia. }
    destruct (mapM_ok_Forall _ _ HB') as (ts & Ets'). congruence.
Qed.
Example C29_witness : ws_ok unit [] /\
  tagger_tag unit tt ascii_udb [] [] (fun _ _ => firstn 52 ([16; 1; 2] ++ repeat 0 52)) [[lit "a"; lit "b"]] <> Ok [] /\
  length (firstn 52 ([16; 1; 2] ++ repeat 0 52)) = 52.
Proof. split; [intros w v []|]. split; [vm_compute; discriminate|reflexivity]. Qed.

(** * C30: the shape of a vectorized sentence *)
(** 643 643 643 and 644 644 644 are the sentence delimiters *)
Theorem C30_vectorization : forall V v0 U cs ws tokens, ws_ok V ws -> charset_ok cs -> length tokens <= 50 ->
  exists d, vectorize_sentence V v0 U cs ws tokens = Ok d /\ m_length d = length tokens + 2 /\
    length (m_chars d) = 52 /\ length (m_words d) = 52 /\
    (forall row, In row (m_chars d) -> length row = 22 /\ forall x, In x row -> x < charset_len cs) /\
    (forall row, In row (m_words d) -> length row = 100) /\
    (forall i w, nth_error ([643%N; 643%N; 643%N] :: tokens ++ [[644%N; 644%N; 644%N]]) i = Some w ->
       nth_error (m_chars d) i = Some (row_spec (char_code cs) w) /\ nth_error (m_words d) i = Some (word_vector V v0 U ws w)) /\
    (forall i, length tokens + 2 <= i < 52 -> nth_error (m_chars d) i = Some (repeat 0 22) /\ nth_error (m_words d) i = Some (repeat v0 100)).
Proof.
  intros V v0 U cs ws tokens HW HC Hl. eexists. split; [apply vectorize_ok; assumption|]. cbn [m_length m_chars m_words].
  assert (HL : length (BOS :: tokens ++ [EOS]) = length tokens + 2) by (cbn [length]; rewrite app_length; cbn [length]; lia).
  assert (HR : forall A (x : A) n i, i < n -> nth_error (repeat x n) i = Some x).
  { intros A x n. induction n; intros [|i] Hi; [lia|lia|reflexivity|]. cbn. apply IHn. lia. }
  split; [reflexivity|]. split; [rewrite app_length, map_length, HL, repeat_length; lia|]. split; [rewrite app_length, map_length, HL, repeat_length; lia|].
  split; [|split; [|split]].
  - intros row Hr. apply in_app_iff in Hr. destruct Hr as [Hr|Hr].
    + apply in_map_iff in Hr. destruct Hr as (w & <- & _). split; [apply row_length|]. intros x. apply row_bound. exact HC.
    + apply repeat_spec in Hr. subst. split; [reflexivity|]. intros x Hx. apply repeat_spec in Hx. subst. unfold charset_len. lia.
  - intros row Hr. apply in_app_iff in Hr. destruct Hr as [Hr|Hr].
    + apply in_map_iff in Hr. destruct Hr as (w & <- & _). apply word_vector_length. exact HW.
    + apply repeat_spec in Hr. subst. apply repeat_length.
  - intros i w Hi. change ([643%N; 643%N; 643%N] :: tokens ++ [[644%N; 644%N; 644%N]]) with (BOS :: tokens ++ [EOS]) in Hi.
    assert (i < length (BOS :: tokens ++ [EOS])) by (apply nth_error_Some; intros E0; pose proof (eq_trans (eq_sym Hi) E0); discriminate).
    split; (rewrite nth_error_app1 by (rewrite map_length; assumption)); rewrite nth_error_map; (etransitivity; [apply f_equal; exact Hi|reflexivity]).
  - intros i Hi. split; (rewrite nth_error_app2; rewrite map_length, HL; [apply HR; lia|lia]).
Qed.
Example C30_witness : charset_ok (charset_save CHARSET_CHARS) /\ ws_ok unit [] /\
  exists d, vectorize_sentence unit tt ascii_udb (charset_save CHARSET_CHARS) [] [lit "Hi"; lit "abcdefghijklmnopqrstuvwxyz"] = Ok d /\
    nth_error (m_chars d) 1 = Some ([96; 33; 8; 97] ++ repeat 0 18).
Proof. split; [apply saved_ok; discriminate|]. split; [intros w v []|]. eexists. split; vm_compute; reflexivity. Qed.

(** The charset saved by [Charset.save], whatever the order of iteration: distinct codes below the number of rows
    announced; a character out of the charset gets a code of its own. *)
Theorem C30_charset : forall order, order <> [] -> NoDup order ->
  let cs := charset_save order in
  charset_len cs = length order + 1 /\
  (forall i c, nth_error order i = Some c -> char_code cs c = i) /\
  (forall c, ~ In c order -> char_code cs c = length order /\ char_code cs c < charset_len cs).
Proof.
  intros order Hne Hnd cs.
  assert (HL : charset_len cs = length order + 1) by (unfold charset_len, cs; rewrite saved_length; lia).
  assert (HK : forall c, In c (dkeys cs) <-> In c order).
  { intros c. unfold dkeys, cs. rewrite in_map_iff. split.
    - intros ((c', n) & <- & H). apply saved_In in H. exact (nth_error_In _ _ H).
    - intros H. apply In_nth_error in H. destruct H as (n & H). exists (c, n). split; [reflexivity|]. apply saved_In. exact H. }
  split; [exact HL|]. split.
  - intros i c Hi. unfold char_code. destruct (dget N.eqb c cs) as [n|] eqn:Eg.
    + apply (dget_In _ N_eqb_ok) in Eg. apply saved_In in Eg. apply (proj1 (NoDup_nth_error order) Hnd).
      * apply nth_error_Some. intros E0. pose proof (eq_trans (eq_sym Eg) E0). discriminate.
      * exact (eq_trans Eg (eq_sym Hi)).
    + exfalso. apply (dget_None _ N_eqb_ok) in Eg. apply Eg, HK. exact (nth_error_In _ _ Hi).
  - intros c Hc. rewrite HL. enough (char_code cs c = length order) by lia. unfold char_code. destruct (dget N.eqb c cs) as [n|] eqn:Eg.
    + exfalso. apply Hc, HK. apply (dget_In _ N_eqb_ok) in Eg. change c with (fst (c, n)). apply in_map. exact Eg.
    + unfold unk_code. assert (Hb : fold_right Nat.max 0 (dvalues cs) <= length order - 1).
      { apply fold_max_bound. intros x Hx. apply in_map_iff in Hx. destruct Hx as ((c', n) & <- & H). apply saved_In in H.
        assert (n < length order) by (apply nth_error_Some; intros E0; pose proof (eq_trans (eq_sym H) E0); discriminate). cbn. lia. }
      assert (Ha : length order - 1 <= fold_right Nat.max 0 (dvalues cs)).
      { destruct (nth_error order (length order - 1)) as [x|] eqn:Ex.
        - apply saved_In in Ex. apply fold_max_ge. change (length order - 1) with (snd (x, length order - 1)). apply in_map. exact Ex.
        - apply nth_error_None in Ex. destruct order; [congruence|cbn in Ex; lia]. }
      destruct order; [congruence|]. cbn [length] in *. lia.
Qed.
Example C30_charset_witness : CHARSET_CHARS <> [] /\ NoDup CHARSET_CHARS /\ ~ In 233%N CHARSET_CHARS /\ char_code (charset_save CHARSET_CHARS) 233%N = 100.
Proof.
  split; [discriminate|]. split; [|split; [|vm_compute; reflexivity]].
  - apply (NoDup_count_occ' N.eq_dec). intros x Hx. revert x Hx. apply Forall_forall.
    repeat (constructor; [vm_compute; reflexivity|]). constructor.
  - intros H. vm_compute in H. repeat (destruct H as [H|H]; [discriminate|]). exact H.
Qed.

(** The alphabet of the saved charset: the printable ASCII characters but the space, two currencies and the four padding characters. In
    whatever order the set is saved, these 100 characters have codes of their own below 100 and all others have the code 100. *)
Theorem C30_alphabet : forall order, Permutation order CHARSET_CHARS ->
  let alphabet := fun c : char => (33 <= c <= 126)%N \/ In c [163; 8364; 8224; 8225; 643; 644]%N in
  let code := char_code (charset_save order) in
  charset_len (charset_save order) = 101 /\
  forall c, (alphabet c -> code c < 100) /\ (~ alphabet c -> code c = 100) /\ (forall c', alphabet c -> alphabet c' -> code c = code c' -> c = c').
Proof.
  intros order P alphabet code.
  assert (HA : forall c, In c order <-> alphabet c).
  { intros c. assert (Hin : In c order <-> In c CHARSET_CHARS) by (split; apply Permutation_in; [exact P|symmetry; exact P]). rewrite Hin. split.
    - intros H. assert (K : forallb (fun c => ((33 <=? c) && (c <=? 126) || existsb (N.eqb c) [163; 8364; 8224; 8225; 643; 644])%N) CHARSET_CHARS = true) by (vm_compute; reflexivity).
      rewrite forallb_forall in K. apply K in H. apply orb_true_iff in H. destruct H as [H|H].
      + apply andb_true_iff in H. rewrite !N.leb_le in H. left. exact H.
      + apply existsb_exists in H. destruct H as (x & Hx & E). apply N.eqb_eq in E. subst x. right. exact Hx.
    - assert (K : forallb (fun c => existsb (N.eqb c) CHARSET_CHARS) (map N.of_nat (seq 33 94) ++ [163; 8364; 8224; 8225; 643; 644]%N) = true) by (vm_compute; reflexivity).
      rewrite forallb_forall in K. intros H. assert (Hc : In c (map N.of_nat (seq 33 94) ++ [163; 8364; 8224; 8225; 643; 644]%N)).
      { apply in_or_app. destruct H as [H|H]; [left|right; exact H]. apply in_map_iff. exists (N.to_nat c). split; [apply N2Nat.id|]. apply in_seq. lia. }
      apply K in Hc. apply existsb_exists in Hc. destruct Hc as (x & Hx & E). apply N.eqb_eq in E. subst x. exact Hx. }
  destruct C30_charset_witness as (_ & ND & _). assert (NDo : NoDup order) by (apply (Permutation_NoDup (l := CHARSET_CHARS)); [symmetry; exact P|exact ND]).
  assert (Lo : length order = 100) by (rewrite (Permutation_length P); reflexivity).
  assert (NE : order <> []) by (intros ->; discriminate).
  destruct (C30_charset order NE NDo) as (HL & H1 & H2). split; [rewrite HL; exact (f_equal (fun n => n + 1) Lo)|]. intros c. split; [|split].
  - intros H. apply HA in H. apply In_nth_error in H. destruct H as (i & H). unfold code. rewrite (H1 i c H). unfold str, char in *. rewrite <- Lo. apply nth_error_Some. intros E. rewrite E in H. discriminate.
  - intros H. unfold code. destruct (H2 c) as [E _]; [rewrite HA; exact H|]. exact (eq_trans E Lo).
  - intros c' H H' E. apply HA in H, H'. apply In_nth_error in H, H'. destruct H as (i & H). destruct H' as (j & H'). unfold code in E. rewrite (H1 _ _ H), (H1 _ _ H') in E. subst j. unfold str, char in *. rewrite H in H'. injection H' as ->. reflexivity.
Qed.

(** The mask of a position: 52 booleans, true at this position only; no mask for a position past the padded sentence. *)
Theorem C30_masks : forall i j,
  (i < 52 -> j < 52 -> exists m1 m2, make_masks i j = Ok (m1, m2) /\ length m1 = 52 /\ length m2 = 52 /\
     (forall k, nth_error m1 k = Some true <-> k = i) /\ (forall k, nth_error m2 k = Some true <-> k = j)) /\
  (52 <= i \/ 52 <= j -> make_masks i j = Err IndexError).
Proof.
  assert (HM : forall i, i < 52 -> exists m, make_mask i = Ok m /\ length m = 52 /\ forall k, nth_error m k = Some true <-> k = i).
  { intros i Hi. unfold make_mask, PADDED_SENT_LENGTH, MAX_SENT_LENGTH. cbn [Nat.add]. replace (i <? 52) with true by (symmetry; apply Nat.ltb_lt; exact Hi).
    eexists. split; [reflexivity|]. split; [rewrite !app_length, !repeat_length; cbn [length]; lia|].
    intros k. split.
    - intros H. destruct (Nat.lt_trichotomy k i) as [L|[->|L]]; [exfalso|reflexivity|exfalso].
      + rewrite nth_error_app1 in H by (rewrite repeat_length; exact L). apply nth_error_In, repeat_spec in H. discriminate.
      + rewrite nth_error_app2 in H by (rewrite repeat_length; lia). rewrite repeat_length in H.
        rewrite nth_error_app2 in H by (cbn [length]; lia). apply nth_error_In, repeat_spec in H. discriminate.
    - intros ->. rewrite nth_error_app2 by (rewrite repeat_length; lia). rewrite repeat_length, Nat.sub_diag. reflexivity. }
  assert (HE : forall i, 52 <= i -> make_mask i = Err IndexError).
  { intros i Hi. unfold make_mask, PADDED_SENT_LENGTH, MAX_SENT_LENGTH. cbn [Nat.add]. replace (i <? 52) with false by (symmetry; apply Nat.ltb_ge; exact Hi). reflexivity. }
  intros i j. split.
  - intros Hi Hj. destruct (HM i Hi) as (m1 & E1 & L1 & N1). destruct (HM j Hj) as (m2 & E2 & L2 & N2). exists m1, m2.
    unfold make_masks. rewrite E1. cbn [rbind]. rewrite E2. cbn [rbind]. auto.
  - intros H. unfold make_masks. destruct (Nat.lt_ge_cases i 52) as [Hi|Hi].
    + destruct (HM i Hi) as (m1 & -> & _). cbn [rbind]. rewrite HE by lia. reflexivity.
    + rewrite HE by exact Hi. reflexivity.
Qed.
Example C30_masks_witness : make_masks 3 52 = Err IndexError /\ exists m1 m2, make_masks 3 51 = Ok (m1, m2) /\ nth_error m1 3 = Some true.
Proof. split; [reflexivity|]. eexists. eexists. split; reflexivity. Qed.

(** * C31: refuted. [Charset.save] numbers the characters from 0 in the order of a set: when the closing delimiter
    comes first, its code is that of the padding, and two words are encoded in the same way. *)
Theorem C31_refuted : exists order u v, Permutation order CHARSET_CHARS /\ u <> v /\ length u <= 20 /\ length v <= 20 /\
  (forall c, In c (u ++ v) -> In c CHARSET_CHARS) /\
  pad_array (encode_chars u (charset_save order)) PADDED_WORD_LENGTH = pad_array (encode_chars v (charset_save order)) PADDED_WORD_LENGTH.
Proof.
  exists (8225%N :: filter (fun c => negb (N.eqb c 8225%N)) CHARSET_CHARS), (lit "a"), (lit "a" ++ [8225%N]).
  split.
  - set (X := CHARSET_CHARS). assert (E : X = firstn 97 X ++ 8225%N :: skipn 98 X) by reflexivity.
    assert (F : filter (fun c => negb (N.eqb c 8225%N)) X = firstn 97 X ++ skipn 98 X) by reflexivity.
    rewrite F. rewrite E at 3. apply Permutation_middle.
  - split; [discriminate|]. split; [cbn; lia|]. split; [cbn; lia|]. split; [|reflexivity].
    intros c Hc. cbn in Hc. destruct Hc as [<-|[<-|[<-|[]]]]; apply in_chars; reflexivity.
Qed.
(** What holds: words differ in their codes as soon as the closing delimiter has not the code 0 (it is 98 in the
    shipped charset) or is in none of the two words. Missing: words with that character when its code is 0. *)
Theorem C31_partial : forall cs u v, codes_inj cs -> In 8225%N (dkeys cs) ->
  (forall c, In c (u ++ v) -> In c (dkeys cs)) -> length u <= 20 -> length v <= 20 ->
  (char_code cs 8225%N <> 0 \/ ~ In 8225%N (u ++ v)) -> u <> v ->
  pad_array (encode_chars u cs) PADDED_WORD_LENGTH <> pad_array (encode_chars v cs) PADDED_WORD_LENGTH.
Proof. intros cs u v H1 H2 H3 H4 H5 H6 Hne E. rewrite !row_of_token in E. apply Hne. eapply row_inj; eauto. Qed.
Example C31_witness : codes_inj (charset_save CHARSET_CHARS) /\ In 8225%N (dkeys (charset_save CHARSET_CHARS)) /\
  char_code (charset_save CHARSET_CHARS) 8225%N <> 0 /\ (forall c, In c (lit "a" ++ lit "b") -> In c (dkeys (charset_save CHARSET_CHARS))).
Proof.
  split; [apply saved_inj|]. split; [apply in_chars; reflexivity|]. split; [vm_compute; discriminate|].
  intros c Hc. cbn in Hc. destruct Hc as [<-|[<-|[]]]; apply in_chars; reflexivity.
Qed.

Print Assumptions C29_refuted.
Print Assumptions C29_partial.
Print Assumptions C30_vectorization.
Print Assumptions C30_charset.
Print Assumptions C30_alphabet.
Print Assumptions C30_masks.
Print Assumptions C31_refuted.
Print Assumptions C31_partial.
