(** Proofs about syntax/training_samples.py, charset.py, wordset.py and tagger.py. *)
From Coq Require Import Ascii String.
From Coq Require Import List NArith ZArith Arith Bool Lia Permutation.
From Verif Require Import PyBase Regex MUtils MTree MVector SVector LBase LText.
Import ListNotations.
Local Open Scope nat_scope.
Local Opaque Nat.sub.

Lemma slice_last {A} (l : list A) k : 0 < k -> slice (Some (- Z.of_nat k)%Z) None l = lastn k l.
Proof.
  intros Hk. unfold slice, clamp, lastn.
  replace ((- Z.of_nat k <? 0)%Z) with true by (symmetry; apply Z.ltb_lt; lia).
  replace (Z.to_nat (Z.max 0 (Z.min (Z.of_nat (length l)) (- Z.of_nat k + Z.of_nat (length l))))) with (length l - k) by lia.
  apply firstn_all2. rewrite skipn_length. lia.
Qed.
Lemma lastn_all {A} (l : list A) k : length l <= k -> lastn k l = l.
Proof. intros H. unfold lastn. replace (length l - k) with 0 by lia. reflexivity. Qed.
Lemma lastn_length {A} (l : list A) k : length (lastn k l) = Nat.min k (length l).
Proof. unfold lastn. rewrite skipn_length. lia. Qed.

Lemma pad_array_short l dim : 0 < dim -> length l <= dim -> pad_array l dim = l ++ repeat 0 (dim - length l).
Proof. intros H1 H2. unfold pad_array. rewrite slice_last by assumption. rewrite lastn_all by assumption. reflexivity. Qed.
Lemma encode_chars_spec token cs : encode_chars token cs = map (char_code cs) ([8224%N] ++ lastn 20 token ++ [8225%N]).
Proof.
  unfold encode_chars. f_equal. f_equal. f_equal. unfold MAX_WORD_LENGTH. destruct (Nat.ltb_spec 20 (length token)) as [H|H].
  - replace (Z.of_nat (length token) - Z.of_nat 20)%Z with (Z.of_nat (length token - 20)) by lia. apply slice_from.
  - rewrite lastn_all by lia. reflexivity.
Qed.
Lemma row_of_token cs token : pad_array (encode_chars token cs) PADDED_WORD_LENGTH = row_spec (char_code cs) token.
Proof.
  pose proof (lastn_length (A:=char) token 20) as HL. rewrite encode_chars_spec.
  rewrite pad_array_short; [|unfold PADDED_WORD_LENGTH, MAX_WORD_LENGTH; lia|].
  2: { rewrite map_length. rewrite !(app_length (A:=char)). cbn [length]. unfold PADDED_WORD_LENGTH, MAX_WORD_LENGTH. unfold char in *. lia. }
  unfold row_spec. rewrite !map_app. cbn [map app]. rewrite <- !app_assoc. cbn [app length]. rewrite app_length, map_length. cbn [length].
  do 3 f_equal. f_equal. unfold PADDED_WORD_LENGTH, MAX_WORD_LENGTH, char in *. lia.
Qed.
Lemma row_length code w : length (row_spec code w) = 22.
Proof.
  pose proof (lastn_length w 20). unfold row_spec. cbn [length]. rewrite app_length, map_length. cbn [length]. rewrite repeat_length. unfold char in *. lia.
Qed.
Lemma pad_empty : pad_array [] PADDED_WORD_LENGTH = repeat 0 22.
Proof. reflexivity. Qed.
Lemma map_repeat' {A B} (f : A -> B) x n : map f (repeat x n) = repeat (f x) n.
Proof. induction n; cbn; [reflexivity|]. f_equal. assumption. Qed.

Lemma pad_char_codes_spec cs tokens : length tokens <= 52 ->
  pad_char_codes (map (fun t => encode_chars t cs) tokens) =
  map (row_spec (char_code cs)) tokens ++ repeat (repeat 0 22) (52 - length tokens).
Proof.
  intros H. unfold pad_char_codes, fill_columns. rewrite slice_to.
  rewrite firstn_all2 by (rewrite map_length; exact H). rewrite map_map, map_length. f_equal.
  - apply map_ext. intros t. apply row_of_token.
  - rewrite map_repeat', pad_empty. reflexivity.
Qed.

Lemma fold_max_bound l b : (forall x, In x l -> x <= b) -> fold_right Nat.max 0 l <= b.
Proof. induction l as [|x l IH]; cbn; intros H; [lia|]. pose proof (H x (or_introl eq_refl)). specialize (IH (fun y Hy => H y (or_intror Hy))). lia. Qed.
Lemma fold_max_ge l x : In x l -> x <= fold_right Nat.max 0 l.
Proof. induction l as [|y l IH]; cbn; [tauto|]. intros [->|H]; [lia|]. specialize (IH H). lia. Qed.
Lemma N_eqb_ok : eqb_ok N.eqb.
Proof. intros x y. apply N.eqb_eq. Qed.
Lemma char_code_bound cs c : charset_ok cs -> char_code cs c < charset_len cs.
Proof.
  intros [Hne Hb]. unfold char_code, charset_len. destruct (dget N.eqb c cs) as [n|] eqn:E.
  - apply (dget_In N.eqb N_eqb_ok) in E. apply Hb in E. lia.
  - unfold unk_code. assert (fold_right Nat.max 0 (dvalues cs) <= length cs - 1); [|destruct cs; [congruence|cbn [length] in *; lia]].
    apply fold_max_bound. intros x Hx. unfold dvalues in Hx. apply in_map_iff in Hx. destruct Hx as ([c' n] & <- & Hx). apply Hb in Hx. cbn. lia.
Qed.
Lemma row_bound cs w x : charset_ok cs -> In x (row_spec (char_code cs) w) -> x < charset_len cs.
Proof.
  intros H Hx. assert (H0 : 0 < charset_len cs) by (unfold charset_len; lia). unfold row_spec in Hx.
  destruct Hx as [<-|Hx]; [apply char_code_bound; exact H|]. apply in_app_iff in Hx. destruct Hx as [Hx|[<-|Hx]].
  - apply in_map_iff in Hx. destruct Hx as (c & <- & _). apply char_code_bound; exact H.
  - apply char_code_bound; exact H.
  - apply repeat_spec in Hx. subst. exact H0.
Qed.

(** ** Saved charsets *)
Lemma enum_from_In {A} (l : list A) k i x : In (i, x) (enum_from k l) <-> k <= i /\ nth_error l (i - k) = Some x.
Proof.
  revert k; induction l as [|y l IH]; intros k; cbn [enum_from In].
  - split; [tauto|]. intros [_ H]. destruct (i - k); discriminate.
  - rewrite IH. split.
    + intros [E|[H1 H2]].
      * injection E as <- <-. split; [lia|]. rewrite Nat.sub_diag. reflexivity.
      * split; [lia|]. replace (i - k) with (S (i - S k)) by lia. exact H2.
    + intros [H1 H2]. destruct (Nat.eq_dec k i) as [->|Hne].
      * left. rewrite Nat.sub_diag in H2. cbn in H2. congruence.
      * right. split; [lia|]. replace (i - k) with (S (i - S k)) in H2 by lia. exact H2.
Qed.
Lemma saved_In order c n : In (c, n) (charset_save order) <-> nth_error order n = Some c.
Proof.
  unfold charset_save. rewrite in_map_iff. split.
  - intros ([i x] & E & H). injection E as <- <-. apply enum_from_In in H. destruct H as [_ H]. rewrite Nat.sub_0_r in H. exact H.
  - intros H. exists (n, c). split; [reflexivity|]. apply enum_from_In. split; [lia|]. rewrite Nat.sub_0_r. exact H.
Qed.
Lemma saved_length order : length (charset_save order) = length order.
Proof. unfold charset_save. rewrite map_length. unfold enumerate. generalize 0. induction order; intros k; cbn; [reflexivity|]. rewrite IHorder. reflexivity. Qed.
Lemma saved_ok order : order <> [] -> charset_ok (charset_save order).
Proof.
  intros H. split.
  - intros E. apply H. apply length_zero_iff_nil. rewrite <- saved_length, E. reflexivity.
  - intros c n Hin. apply saved_In in Hin. rewrite saved_length. apply nth_error_Some. congruence.
Qed.
Lemma saved_inj order : codes_inj (charset_save order).
Proof. intros c c' n H1 H2. apply saved_In in H1. apply saved_In in H2. congruence. Qed.

Lemma char_code_inj cs a b : codes_inj cs -> In a (dkeys cs) -> In b (dkeys cs) -> char_code cs a = char_code cs b -> a = b.
Proof.
  intros Hi Ha Hb. unfold char_code.
  assert (K : forall x, In x (dkeys cs) -> exists n, dget N.eqb x cs = Some n).
  { intros x Hx. destruct (dget N.eqb x cs) eqn:E; [eauto|]. exfalso. apply (dget_None N.eqb N_eqb_ok) in E. contradiction. }
  destruct (K a Ha) as [n En]. destruct (K b Hb) as [m Em]. rewrite En, Em. intros ->.
  apply (dget_In N.eqb N_eqb_ok) in En. apply (dget_In N.eqb N_eqb_ok) in Em. eapply Hi; eauto.
Qed.
Lemma map_code_inj cs u v : codes_inj cs -> (forall c, In c u -> In c (dkeys cs)) -> (forall c, In c v -> In c (dkeys cs)) ->
  map (char_code cs) u = map (char_code cs) v -> u = v.
Proof.
  intros Hi. revert v; induction u as [|x u IH]; intros [|y v] Hu Hv E; try discriminate; [reflexivity|].
  cbn in E. injection E as E1 E2. f_equal.
  - eapply char_code_inj; eauto; [apply Hu|apply Hv]; left; reflexivity.
  - apply IH; auto; intros c Hc; [apply Hu|apply Hv]; right; exact Hc.
Qed.
(** two lists without a zero at their end, padded with zeros *)
Lemma pad_inj (u v : list nat) a b n m : a <> 0 -> b <> 0 -> u ++ a :: repeat 0 n = v ++ b :: repeat 0 m -> u = v /\ a = b.
Proof.
  intros Ha Hb. revert v; induction u as [|x u IH]; intros [|y v] E; cbn in E.
  - injection E as -> E. auto.
  - exfalso. injection E as _ E. assert (In b (repeat 0 n)) by (rewrite E; apply in_or_app; right; left; reflexivity). apply repeat_spec in H. congruence.
  - exfalso. injection E as _ E. assert (In a (repeat 0 m)) by (rewrite <- E; apply in_or_app; right; left; reflexivity). apply repeat_spec in H. congruence.
  - injection E as -> E. destruct (IH v E) as [-> ->]. auto.
Qed.
Lemma zeros_inj (u v : list nat) n m : (forall x, In x u -> x <> 0) -> (forall x, In x v -> x <> 0) -> u ++ repeat 0 n = v ++ repeat 0 m -> u = v.
Proof.
  revert v; induction u as [|x u IH]; intros [|y v] Hu Hv E; cbn in E.
  - reflexivity.
  - exfalso. destruct n; cbn in E; [discriminate|]. injection E as E _. apply (Hv y); [left; reflexivity|congruence].
  - exfalso. destruct m; cbn in E; [discriminate|]. injection E as E _. apply (Hu x); [left; reflexivity|congruence].
  - injection E as -> E. f_equal. apply IH; auto; intros z Hz; [apply Hu|apply Hv]; right; exact Hz.
Qed.
Lemma row_inj cs u v : codes_inj cs -> In 8225%N (dkeys cs) -> (forall c, In c (u ++ v) -> In c (dkeys cs)) -> length u <= 20 -> length v <= 20 ->
  (char_code cs 8225%N <> 0 \/ ~ In 8225%N (u ++ v)) ->
  row_spec (char_code cs) u = row_spec (char_code cs) v -> u = v.
Proof.
  intros Hi Hd Hk Lu Lv Hz E. unfold row_spec in E. rewrite !lastn_all in E by assumption. injection E as E.
  assert (Hku : forall c, In c u -> In c (dkeys cs)) by (intros c Hc; apply Hk, in_or_app; auto).
  assert (Hkv : forall c, In c v -> In c (dkeys cs)) by (intros c Hc; apply Hk, in_or_app; auto).
  destruct (Nat.eq_dec (char_code cs 8225%N) 0) as [Ez|Enz].
  - destruct Hz as [Hz|Hz]; [contradiction|]. rewrite Ez in E.
    assert (NZ : forall w, (forall c, In c w -> In c (u ++ v)) -> forall x, In x (map (char_code cs) w) -> x <> 0).
    { intros w Hw x Hx. apply in_map_iff in Hx. destruct Hx as (c & <- & Hc). intros E0. rewrite <- Ez in E0.
      apply (char_code_inj cs c 8225%N Hi) in E0; [|apply Hk; auto|exact Hd]. subst c. apply Hz. auto. }
    change (0 :: repeat 0 (20 - length u)) with (repeat 0 (S (20 - length u))) in E.
    change (0 :: repeat 0 (20 - length v)) with (repeat 0 (S (20 - length v))) in E.
    apply zeros_inj in E; [|apply NZ; intros; apply in_or_app; auto|apply NZ; intros; apply in_or_app; auto].
    eapply map_code_inj; eauto.
  - apply pad_inj in E; [|assumption|assumption]. destruct E as [E _]. eapply map_code_inj; eauto.
Qed.

(** ** Sentences *)
Section V.
  Context (V : Type) (v0 : V) (U : udb).
  Lemma word_vector_length ws w : ws_ok V ws -> length (word_vector V v0 U ws w) = WORD_VECTOR_SIZE.
  Proof.
    intros H. unfold word_vector. destruct (dget str_eqb (lower U w) ws) as [v|] eqn:E; [|apply repeat_length].
    apply (dget_In str_eqb str_eqb_ok) in E. eapply H. exact E.
  Qed.
  Definition BOS : str := [643; 643; 643]%N.
  Definition EOS : str := [644; 644; 644]%N.
  Lemma vectorize_ok cs ws tokens : ws_ok V ws -> length tokens <= MAX_SENT_LENGTH ->
    vectorize_sentence V v0 U cs ws tokens = Ok {|
      m_length := length tokens + 2;
      m_chars := map (row_spec (char_code cs)) (BOS :: tokens ++ [EOS]) ++ repeat (repeat 0 22) (50 - length tokens);
      m_words := map (word_vector V v0 U ws) (BOS :: tokens ++ [EOS]) ++ repeat (repeat v0 100) (50 - length tokens) |}.
  Proof.
    intros Hw Hl. unfold vectorize_sentence. destruct (Nat.ltb_spec MAX_SENT_LENGTH (length tokens)) as [H|_]; [lia|].
    change ([[643; 643; 643]%N] ++ tokens ++ [[644; 644; 644]%N]) with (BOS :: tokens ++ [EOS]).
    assert (HL : length (BOS :: tokens ++ [EOS]) = length tokens + 2) by (cbn [length]; rewrite app_length; cbn [length]; lia).
    unfold MAX_SENT_LENGTH in Hl.
    set (L := BOS :: tokens ++ [EOS]) in *. rewrite pad_char_codes_spec by lia.
    unfold pad_word_vectors. assert (E0 : index (map (word_vector V v0 U ws) L) 0 = Ok (word_vector V v0 U ws BOS)) by reflexivity.
    rewrite E0. cbn [rbind]. rewrite (word_vector_length ws BOS Hw).
    assert (EF : forallb (fun a => length a =? WORD_VECTOR_SIZE) (map (word_vector V v0 U ws) L) = true).
    { apply forallb_forall. intros a Ha. apply in_map_iff in Ha. destruct Ha as (w & <- & _). apply Nat.eqb_eq. apply word_vector_length. exact Hw. }
    rewrite EF, map_length, HL. unfold PADDED_SENT_LENGTH, MAX_SENT_LENGTH.
    destruct (Nat.leb_spec (length tokens + 2) (50 + 2)); [|lia]. cbn [rbind].
    replace (52 - (length tokens + 2)) with (50 - length tokens) by lia.
    replace (50 + 2 - (length tokens + 2)) with (50 - length tokens) by lia. apply f_equal. f_equal. exact HL.
  Qed.
  Lemma vectorize_long cs ws tokens : MAX_SENT_LENGTH < length tokens -> vectorize_sentence V v0 U cs ws tokens = Err SentenceTooLongError.
  Proof. intros H. unfold vectorize_sentence. apply Nat.ltb_lt in H. rewrite H. reflexivity. Qed.
End V.
