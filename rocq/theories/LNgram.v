(** Lemmas about ngrams, their extraction and the ngram store. *)
From Coq Require Import Ascii String.
From Coq Require Import List NArith ZArith QArith Arith Bool Lia Permutation.
From Verif Require Import PyBase Regex MUtils SUtils LBase LText LUtils MNgram SLangModel.
Import ListNotations.
Local Open Scope nat_scope.

(** ** windows *)
Lemma windows_short {A} n (l : list A) : length l < n -> windows n l = [].
Proof. intros H. unfold windows. replace (length l + 1 - n) with 0 by lia. reflexivity. Qed.
Lemma windows_cons {A} n x (l : list A) : n <= S (length l) -> windows n (x :: l) = firstn n (x :: l) :: windows n l.
Proof.
  intros H. unfold windows. cbn [length]. replace (S (length l) + 1 - n) with (S (length l + 1 - n)) by lia.
  cbn [seq map skipn]. f_equal. rewrite <- seq_shift, map_map. apply map_ext. reflexivity.
Qed.
Lemma windows_1 {A} (l : list A) : windows 1 l = map (fun x => [x]) l.
Proof. induction l as [|x l IH]; [reflexivity|]. rewrite windows_cons by lia. rewrite IH. reflexivity. Qed.
Lemma In_windows {A} n (l w : list A) : 1 <= n -> In w (windows n l) <-> length w = n /\ exists a b, l = a ++ w ++ b.
Proof.
  intros Hn. unfold windows. rewrite in_map_iff. split.
  - intros (i & <- & Hi). apply in_seq in Hi. split; [rewrite firstn_length, skipn_length; lia|].
    exists (firstn i l), (skipn n (skipn i l)). rewrite firstn_skipn, firstn_skipn. reflexivity.
  - intros (E & a & b & ->). exists (length a). rewrite skipn_app, skipn_all, Nat.sub_diag. cbn [skipn app].
    rewrite firstn_app, E, Nat.sub_diag. cbn [firstn]. rewrite app_nil_r, firstn_all2 by lia. split; [reflexivity|].
    apply in_seq. rewrite !app_length. lia.
Qed.

Lemma existsb_nil_skip (l : list str) n : 1 <= n ->
  existsb (fun l => match l with [] => true | _ => false end) (map (fun i => skipn i l) (seq 0 n)) = (length l <? n).
Proof.
  intros Hn. destruct (Nat.ltb_spec (length l) n) as [H|H].
  - apply existsb_exists. exists (skipn (n - 1) l). split; [apply in_map_iff; exists (n - 1); split; [reflexivity|apply in_seq; lia]|].
    rewrite skipn_all2 by lia. reflexivity.
  - apply not_true_is_false. intros E. apply existsb_exists in E. destruct E as (x & Hx & E). apply in_map_iff in Hx.
    destruct Hx as (i & <- & Hi). apply in_seq in Hi. pose proof (skipn_length i l) as Hl. destruct (skipn i l); [cbn in Hl; lia|discriminate].
Qed.
Lemma heads_firstn (l : list str) n : n <= length l ->
  flat_map (fun l : list str => match l with [] => [] | x :: _ => [x] end) (map (fun i => skipn i l) (seq 0 n)) = firstn n l.
Proof.
  revert l. induction n as [|n IH]; intros l H; [reflexivity|]. destruct l as [|x l]; [cbn in H; lia|].
  cbn [seq map flat_map skipn firstn app]. f_equal. rewrite <- seq_shift, map_map. cbn [skipn]. apply IH. cbn in H. lia.
Qed.
Lemma zip_lists_windows n : 1 <= n -> forall l fuel, length l <= fuel -> zip_lists fuel (map (fun i => skipn i l) (seq 0 n)) = windows n l.
Proof.
  intros Hn. induction l as [|x l IH]; intros fuel Hf.
  - destruct n as [|n]; [lia|]. cbn [seq map]. destruct fuel; cbn [zip_lists existsb skipn orb]; symmetry; apply windows_short; cbn; lia.
  - assert (E : exists a r, map (fun i => skipn i (x :: l)) (seq 0 n) = a :: r) by (destruct n; [lia|]; cbn; eauto).
    destruct E as (a & r & E). destruct fuel as [|f]; [cbn in Hf; lia|]. rewrite E. cbn [zip_lists]. rewrite <- E.
    rewrite existsb_nil_skip by exact Hn. destruct (Nat.ltb_spec (length (x :: l)) n) as [H|H].
    + symmetry. apply windows_short. exact H.
    + cbn [length] in H. rewrite windows_cons by exact H. rewrite heads_firstn by exact H. f_equal. rewrite map_map.
      rewrite <- (IH f) by (cbn in Hf; lia). f_equal. apply map_ext. intros i. clear. revert x l. induction i; intros x l; [reflexivity|].
      destruct l as [|y l]; [destruct i; reflexivity|]. cbn [skipn]. apply (IHi y l).
Qed.
Lemma slide_window_spec items n : 1 <= n -> slide_window items n = windows n items.
Proof.
  intros H. unfold slide_window. rewrite (map_ext _ (fun i => skipn i items)) by (intros; apply slice_from).
  apply zip_lists_windows; [exact H|lia].
Qed.
(** Without any token per window there is no window. *)
Lemma slide_window_0 items : slide_window items 0 = [].
Proof. unfold slide_window. cbn. destruct (length items); reflexivity. Qed.

(** ** valid tokens *)
Section Words.
  Context (U : udb) (OK : udb_ok U).

  Lemma is_letter_b_iff c : is_letter_b c = true <-> (97 <= c <= 122 \/ 65 <= c <= 90)%N.
  Proof. unfold is_letter_b. rewrite orb_true_iff, !andb_true_iff, !N.leb_le. tauto. Qed.
  Lemma has_only_letters_b w : has_only_letters U w = negb (match w with [] => true | _ => false end) && forallb is_letter_b w.
  Proof.
    destruct (has_only_letters U w) eqn:E.
    - apply has_only_letters_spec in E. destruct E as [E1 E2]. symmetry. apply andb_true_iff. split; [destruct w; [congruence|reflexivity]|].
      apply forallb_forall. intros c Hc. rewrite Forall_forall in E2. apply is_letter_b_iff. apply E2. exact Hc.
    - symmetry. apply not_true_is_false. intros H. apply andb_true_iff in H. destruct H as [H1 H2].
      assert (has_only_letters U w = true); [|congruence]. apply has_only_letters_spec. split; [destruct w; [discriminate|congruence]|].
      apply Forall_forall. intros c Hc. rewrite forallb_forall in H2. apply is_letter_b_iff. apply H2. exact Hc.
  Qed.
  Lemma existsb_upper c : existsb (N.eqb c) (lit "ABCDEFGHIJKLMNOPQRSTUVWXYZ") = ((65 <=? c) && (c <=? 90))%N.
  Proof.
    destruct (N.leb_spec 65 c) as [H1|H1], (N.leb_spec c 90) as [H2|H2]; cbn [andb].
    - apply existsb_exists. exists c. split; [|apply N.eqb_refl].
      assert (H : In c (map (fun i => N.of_nat (65 + i)) (seq 0 26))); [|exact H].
      apply in_map_iff. exists (N.to_nat c - 65). split; [lia|apply in_seq; lia].
    - apply not_true_is_false. intros H. apply existsb_exists in H. destruct H as (x & Hx & E). apply N.eqb_eq in E. subst x.
      cbn in Hx. repeat (destruct Hx as [Hx|Hx]; [lia|]). destruct Hx.
    - apply not_true_is_false. intros H. apply existsb_exists in H. destruct H as (x & Hx & E). apply N.eqb_eq in E. subst x.
      cbn in Hx. repeat (destruct Hx as [Hx|Hx]; [lia|]). destruct Hx.
    - lia.
  Qed.
  Lemma valid_ngram_token_spec w : valid_ngram_token U w = Ok (ngram_word w).
  Proof.
    unfold valid_ngram_token, ngram_word. destruct w as [|c w]; [reflexivity|].
    destruct (str_eqb (c :: w) (lit "I")) eqn:E; [reflexivity|]. cbn [orb].
    assert (Hu : starts_with_uppercase_letter (c :: w) = Ok ((65 <=? c) && (c <=? 90))%N).
    { change (starts_with_uppercase_letter (c :: w)) with (@Ok bool (existsb (N.eqb c) (lit "ABCDEFGHIJKLMNOPQRSTUVWXYZ"))). f_equal. apply existsb_upper. }
    rewrite Hu. cbn [rbind]. rewrite has_only_letters_b. cbn [negb andb]. f_equal.
    destruct (forallb is_letter_b (c :: w)), ((65 <=? c) && (c <=? 90))%N; reflexivity.
  Qed.
  Lemma valid_tokens_spec ts : valid_tokens U ts = Ok (forallb ngram_word ts).
  Proof.
    unfold valid_tokens. rewrite (mapM_total _ ngram_word) by (intros; apply valid_ngram_token_spec). cbn [rbind]. f_equal.
    induction ts; cbn; congruence.
  Qed.
  Lemma filterM_spec {A} (f : A -> res bool) g (l : list A) : (forall x, f x = Ok (g x)) -> filterM f l = Ok (filter g l).
  Proof. intros H. induction l as [|x l IH]; [reflexivity|]. cbn. rewrite H, IH. cbn. destruct (g x); reflexivity. Qed.

  (** lower-casing a joined text *)
  Lemma lower_app s t : lower U (s ++ t) = lower U s ++ lower U t.
  Proof. apply flat_map_app. Qed.
  Lemma lower_space : lower U (lit " ") = lit " ".
  Proof. unfold lower. cbn. rewrite (ok_lower_ascii U OK) by lia. reflexivity. Qed.
  Lemma lower_spaced ts : lower U (spaced ts) = spaced (map (lower U) ts).
  Proof.
    unfold spaced. induction ts as [|t ts IH]; [reflexivity|]. destruct ts as [|t' ts]; [reflexivity|].
    change (join (lit " ") (t :: t' :: ts)) with (t ++ lit " " ++ join (lit " ") (t' :: ts)).
    rewrite !lower_app, lower_space, IH. reflexivity.
  Qed.

  Lemma extract_one_spec n ts : 1 <= n -> extract_one U n ts = Ok (map spaced (ngrams_in U n ts)).
  Proof.
    intros Hn. unfold extract_one.
    assert (E : (if n =? 1 then map (fun t => [t]) ts else slide_window ts n) = windows n ts).
    { destruct (Nat.eqb_spec n 1) as [->|H]; [symmetry; apply windows_1|apply slide_window_spec; exact Hn]. }
    rewrite E. rewrite (filterM_spec _ (forallb ngram_word)) by apply valid_tokens_spec. cbn [rbind]. f_equal.
    unfold ngrams_in. rewrite map_map. apply map_ext. intros. apply lower_spaced.
  Qed.
  Lemma map_flat_map {A B C} (f : B -> C) (g : A -> list B) l : map f (flat_map g l) = flat_map (fun x => map f (g x)) l.
  Proof. induction l; cbn; [reflexivity|]. rewrite map_app. congruence. Qed.
  Lemma extract_ngrams_spec sents n : 1 <= n -> extract_ngrams U sents n = Ok (map spaced (ngrams_of U n sents)).
  Proof.
    intros Hn. unfold extract_ngrams. rewrite (mapM_total _ (fun ts => map spaced (ngrams_in U n ts))) by (intros; apply extract_one_spec; exact Hn).
    cbn [rbind]. f_equal. unfold ngrams_of. rewrite map_flat_map, flat_map_app_map. reflexivity.
  Qed.

  (** words of ngrams: no whitespace, not empty, no wildcard; ASCII lower-case letters *)
  Definition plain (w : str) : Prop := w <> [] /\ Forall (fun c => (97 <= c <= 122)%N) w.
  Lemma lower_letter c : is_letter_b c = true -> exists d, u_lower U c = [d] /\ (97 <= d <= 122)%N.
  Proof.
    intros H. apply is_letter_b_iff in H. rewrite (ok_lower_ascii U OK) by lia. exists (ascii_lower c). split; [reflexivity|].
    unfold ascii_lower, is_upper. destruct (N.leb_spec 65 c), (N.leb_spec c 90); cbn [andb]; lia.
  Qed.
  Lemma ngram_word_plain w : ngram_word w = true -> plain (lower U w).
  Proof.
    intros H. assert (Hl : w <> [] /\ forallb is_letter_b w = true).
    { unfold ngram_word in H. apply orb_true_iff in H. destruct H as [H|H].
      - apply str_eqb_eq in H. subst. split; [discriminate|reflexivity].
      - destruct w; [discriminate|]. split; [discriminate|]. apply andb_true_iff in H. apply H. }
    destruct Hl as [Hn Hl]. assert (HF : Forall (fun c => (97 <= c <= 122)%N) (lower U w)).
    { clear - OK Hl. induction w as [|c w IH]; cbn; [constructor|]. cbn in Hl. apply andb_true_iff in Hl. destruct Hl as [H1 H2].
      destruct (lower_letter c H1) as (d & -> & Hd). cbn. constructor; [exact Hd|apply IH; exact H2]. }
    split; [|exact HF]. destruct w as [|c w]; [congruence|]. cbn in Hl. apply andb_true_iff in Hl. destruct (lower_letter c (proj1 Hl)) as (d & Ed & _).
    unfold lower. cbn. rewrite Ed. discriminate.
  Qed.
  Lemma plain_nospace w : plain w -> w <> [] /\ Forall (fun c => u_space U c = false) w.
  Proof.
    intros [H1 H2]. split; [exact H1|]. eapply Forall_impl; [|exact H2]. intros c Hc. cbn in Hc. rewrite (ok_space U OK) by lia.
    unfold ascii_space. repeat match goal with |- context [(?a <=? ?b)%N] => destruct (N.leb_spec a b); try lia end; cbn;
    repeat match goal with |- context [(?a =? ?b)%N] => destruct (N.eqb_spec a b); try lia end; reflexivity.
  Qed.

  (** joining and splitting *)
  Definition tokenish (w : str) : Prop := w <> [] /\ Forall (fun c => u_space U c = false) w.
  Lemma space_is_space : u_space U 32%N = true.
  Proof. rewrite (ok_space U OK) by lia. reflexivity. Qed.
  Lemma split_spaced g : Forall tokenish g -> split_ws (u_space U) (spaced g) = g.
  Proof. intros H. unfold spaced. apply split_ws_join; [apply space_is_space|exact H]. Qed.
  Lemma spaced_inj g h : Forall tokenish g -> Forall tokenish h -> spaced g = spaced h -> g = h.
  Proof. intros Hg Hh E. apply (f_equal (split_ws (u_space U))) in E. rewrite !split_spaced in E by assumption. exact E. Qed.
  Lemma joinsp_spaced g : joinsp g = spaced g. Proof. reflexivity. Qed.
  Lemma WC_tokenish : tokenish WC.
  Proof. split; [discriminate|]. constructor; [|constructor]. apply (ok_symbols_space U OK). cbn. tauto. Qed.
  Lemma plain_tokenish w : plain w -> tokenish w. Proof. apply plain_nospace. Qed.
  Lemma plain_not_WC w : plain w -> w <> WC.
  Proof. intros [_ H] ->. inversion H; subst. lia. Qed.

  Lemma ngrams_in_plain n s g : In g (ngrams_in U n s) -> Forall plain g.
  Proof.
    unfold ngrams_in. rewrite in_map_iff. intros (w & <- & Hw). apply filter_In in Hw. destruct Hw as [_ Hw]. rewrite forallb_forall in Hw.
    apply Forall_forall. intros x Hx. apply in_map_iff in Hx. destruct Hx as (y & <- & Hy). apply ngram_word_plain. apply Hw. exact Hy.
  Qed.
  Lemma ngrams_of_plain n s g : In g (ngrams_of U n s) -> Forall plain g.
  Proof. unfold ngrams_of. rewrite in_flat_map. intros (x & _ & H). eapply ngrams_in_plain; exact H. Qed.
  Lemma ngrams_of_length n s g : 1 <= n -> In g (ngrams_of U n s) -> length g = n.
  Proof.
    intros Hn. unfold ngrams_of, ngrams_in. rewrite in_flat_map. intros (x & _ & H). apply in_map_iff in H. destruct H as (w & <- & Hw).
    apply filter_In in Hw. rewrite map_length. destruct Hw as [Hw _]. apply In_windows in Hw; [|exact Hn]. apply Hw.
  Qed.

  (** closure: an ngram without its first or its last word is an ngram *)
  Lemma In_ngrams_of n s g : 1 <= n -> In g (ngrams_of U n s) <->
    exists t w, In t s /\ g = map (lower U) w /\ length w = n /\ forallb ngram_word w = true /\ exists a b, t = a ++ w ++ b.
  Proof.
    intros Hn. unfold ngrams_of, ngrams_in. rewrite in_flat_map. split.
    - intros (t & Ht & H). apply in_map_iff in H. destruct H as (w & <- & Hw). apply filter_In in Hw. destruct Hw as [Hw Hv].
      apply In_windows in Hw; [|exact Hn]. destruct Hw as [Hl Hab]. exists t, w. auto.
    - intros (t & w & Ht & -> & Hl & Hv & Hab). exists t. split; [exact Ht|]. apply in_map_iff. exists w. split; [reflexivity|].
      apply filter_In. split; [|exact Hv]. apply In_windows; [exact Hn|]. auto.
  Qed.
  Lemma ngrams_of_tl n s g : 1 <= n -> In g (ngrams_of U (S n) s) -> In (tl g) (ngrams_of U n s).
  Proof.
    intros Hn H. apply In_ngrams_of in H; [|lia]. destruct H as (t & w & Ht & -> & Hl & Hv & a & b & E).
    destruct w as [|x w]; [cbn in Hl; lia|]. apply In_ngrams_of; [exact Hn|]. exists t, w. cbn in Hl, Hv. apply andb_true_iff in Hv.
    split; [exact Ht|]. split; [reflexivity|]. split; [lia|]. split; [tauto|]. exists (a ++ [x]), b. rewrite E, <- app_assoc. reflexivity.
  Qed.
  Lemma map_removelast {A B} (f : A -> B) l : map f (removelast l) = removelast (map f l).
  Proof. induction l as [|x l IH]; [reflexivity|]. destruct l as [|y l]; [reflexivity|]. cbn in *. congruence. Qed.
  Lemma ngrams_of_removelast n s g : 1 <= n -> In g (ngrams_of U (S n) s) -> In (removelast g) (ngrams_of U n s).
  Proof.
    intros Hn H. apply In_ngrams_of in H; [|lia]. destruct H as (t & w & Ht & -> & Hl & Hv & a & b & E).
    assert (Hw : w <> []) by (intros ->; cbn in Hl; lia). pose proof (app_removelast_last [] Hw) as Ew.
    apply In_ngrams_of; [exact Hn|]. exists t, (removelast w). split; [exact Ht|]. split; [symmetry; apply map_removelast|].
    split; [rewrite Ew, app_length in Hl; cbn in Hl; unfold str, char in *; lia|].
    rewrite Ew, forallb_app in Hv. apply andb_true_iff in Hv. split; [tauto|]. exists a, (last w [] :: b). rewrite E, Ew at 1. rewrite <- !app_assoc. reflexivity.
  Qed.
End Words.

(** ** the store *)
Definition store_of (l : list str) : store := fold_left make_ngram l [].
Lemma occurrences_app x l y : occurrences x (l ++ [y]) = occurrences x l + (if str_eqb x y then 1 else 0).
Proof. unfold occurrences. rewrite filter_app, app_length. cbn. destruct (str_eqb x y); reflexivity. Qed.
Definition counted (l : list str) (t : str) : ngram := {| ng_text := t; ng_count := occurrences t l; ng_proba := None |}.
Lemma store_of_spec l : store_of l = map (fun t => (t, counted l t)) (firsts str_eqb l).
Proof.
  induction l as [|t l IH] using rev_ind; [reflexivity|].
  unfold store_of in *. rewrite fold_left_app. cbn [fold_left]. rewrite IH. clear IH.
  rewrite (firsts_app str_eqb str_eqb_ok). unfold make_ngram.
  assert (Hk : forall m, dkeys (map (fun t => (t, counted m t)) (firsts str_eqb l)) = firsts str_eqb l).
  { intros m. unfold dkeys. rewrite map_map. cbn. apply map_id. }
  assert (Hnd : NoDup (firsts str_eqb l)) by apply (NoDup_firsts str_eqb str_eqb_ok).
  destruct (existsb (str_eqb t) l) eqn:E.
  - assert (Hin : In t (firsts str_eqb l)) by (apply (In_firsts str_eqb str_eqb_ok); apply existsb_exists in E; destruct E as (x & Hx & E); apply str_eqb_eq in E; subst; exact Hx).
    assert (Hg : dget str_eqb t (map (fun t => (t, counted l t)) (firsts str_eqb l)) = Some (counted l t)).
    { apply (In_dget _ str_eqb_ok); [rewrite Hk; exact Hnd|]. apply in_map_iff. exists t. auto. }
    rewrite Hg. cbn [ng_text ng_count ng_proba counted]. clear Hg Hk E. revert Hin Hnd. generalize (firsts str_eqb l) as fs. intros fs Hin Hnd.
    induction fs as [|x r IH]; [destruct Hin|]. inversion Hnd; subst. cbn [map dset].
    destruct (str_eqb t x) eqn:E.
    + apply str_eqb_eq in E. subst x. f_equal.
      * unfold counted. rewrite occurrences_app, str_eqb_refl. reflexivity.
      * apply map_ext_in. intros y Hy. unfold counted. rewrite occurrences_app. replace (str_eqb y t) with false; [rewrite Nat.add_0_r; reflexivity|].
        symmetry. apply str_eqb_neq. intros ->. contradiction.
    + f_equal.
      * unfold counted. rewrite occurrences_app. replace (str_eqb x t) with false; [rewrite Nat.add_0_r; reflexivity|].
        symmetry. apply str_eqb_neq. intros ->. rewrite str_eqb_refl in E. discriminate.
      * apply IH; [|assumption]. destruct Hin as [->|Hin]; [rewrite str_eqb_refl in E; discriminate|exact Hin].
  - assert (Hn : ~ In t l). { intros H. assert (existsb (str_eqb t) l = true); [|congruence]. apply existsb_exists. exists t. split; [exact H|apply str_eqb_refl]. }
    assert (Hg : dget str_eqb t (map (fun t => (t, counted l t)) (firsts str_eqb l)) = None).
    { apply (dget_None _ str_eqb_ok). rewrite Hk. rewrite (In_firsts str_eqb str_eqb_ok). exact Hn. }
    rewrite Hg. rewrite dset_new by exact Hg. rewrite map_app. f_equal.
    + apply map_ext_in. intros y Hy. unfold counted. rewrite occurrences_app. replace (str_eqb y t) with false; [rewrite Nat.add_0_r; reflexivity|].
      symmetry. apply str_eqb_neq. intros ->. apply Hn. apply (In_firsts str_eqb str_eqb_ok). exact Hy.
    + cbn. unfold new_ngram, counted. rewrite occurrences_app, str_eqb_refl. do 3 f_equal. unfold occurrences.
      clear - Hn. induction l as [|x l IH]; [reflexivity|]. cbn. destruct (str_eqb t x) eqn:E; [apply str_eqb_eq in E; subst; exfalso; apply Hn; left; reflexivity|].
      apply IH. intros H. apply Hn. right. exact H.
Qed.
