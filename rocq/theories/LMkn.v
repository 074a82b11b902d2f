(** Modified Kneser-Ney: the counters of the smoother are the statistics of the corpus, and its values are those of the
    specification. *)
From Coq Require Import Ascii String.
From Coq Require Import List NArith ZArith QArith Qminmax Arith Bool Lia.
From Verif Require Import PyBase Regex MUtils SUtils LBase LText LUtils LRanges MNgram SLangModel LNgram LLangModel MSmooth LSmooth LCorpus.
Import ListNotations.
Local Open Scope nat_scope.

(** ** counters *)
Section Counters.
  Context {K : Type} (eqb : K -> K -> bool) (Heqb : eqb_ok eqb).
  Lemma cget_incr k k' c : cget eqb k (cincr eqb k' c) = cget eqb k c + (if eqb k k' then 1 else 0).
  Proof.
    unfold cincr, cget. rewrite (dget_dset _ Heqb). destruct (eqb k k') eqn:E; [|rewrite Nat.add_0_r; reflexivity]. apply Heqb in E. subst. reflexivity.
  Qed.
  Lemma cget_fold {A} (b : A -> bool) (key : A -> K) k (l : list A) : forall d,
    cget eqb k (fold_left (fun d n => if b n then cincr eqb (key n) d else d) l d) = cget eqb k d + length (filter (fun n => b n && eqb k (key n)) l).
  Proof.
    induction l as [|x l IH]; intros d; [cbn; lia|]. cbn [fold_left filter]. rewrite IH. destruct (b x); [|reflexivity]. cbn [andb]. rewrite cget_incr.
    destruct (eqb k (key x)); cbn [length]; lia.
  Qed.
End Counters.

Lemma join_app sep a b : a <> [] -> b <> [] -> join sep (a ++ b) = join sep a ++ sep ++ join sep b.
Proof.
  intros Ha Hb. induction a as [|x a IH]; [congruence|]. destruct a as [|y a].
  - destruct b as [|z b]; [congruence|]. reflexivity.
  - change (join sep ((x :: y :: a) ++ b)) with (x ++ sep ++ join sep ((y :: a) ++ b)). rewrite IH by discriminate.
    change (join sep (x :: y :: a)) with (x ++ sep ++ join sep (y :: a)). rewrite <- !app_assoc. reflexivity.
Qed.
Lemma joinsp_cons w l : l <> [] -> joinsp [w; joinsp l] = spaced (w :: l).
Proof. intros H. destruct l; [congruence|]. reflexivity. Qed.
Lemma joinsp_snoc w l : l <> [] -> joinsp [joinsp l; w] = spaced (l ++ [w]).
Proof. intros H. unfold joinsp, spaced. rewrite join_app by (assumption || discriminate). reflexivity. Qed.
Lemma joinsp_both w l : l <> [] -> joinsp [w; joinsp l; w] = spaced (w :: l ++ [w]).
Proof.
  intros H. unfold joinsp, spaced. change (w :: l ++ [w]) with ([w] ++ (l ++ [w])). rewrite join_app; [|discriminate|destruct l; discriminate].
  rewrite (join_app _ l) by (assumption || discriminate). reflexivity.
Qed.
Lemma slice_mid {A} (g : list A) : 2 <= length g -> slice (Some 1%Z) (Some (-1)%Z) g = removelast (tl g).
Proof.
  intros H. destruct g as [|x g]; [cbn in H; lia|]. cbn [tl length] in *. unfold slice. cbn [length]. 
  replace (clamp (Z.of_nat (S (length g))) 1) with 1 by (unfold clamp; destruct (Z.ltb_spec 1 0); lia).
  replace (clamp (Z.of_nat (S (length g))) (-1)) with (length g) by (unfold clamp; destruct (Z.ltb_spec (-1) 0); lia).
  cbn [skipn]. rewrite removelast_firstn_len. f_equal. lia.
Qed.
Lemma slice_tl {A} (g : list A) : slice (Some 1%Z) None g = tl g.
Proof. change 1%Z with (Z.of_nat 1). rewrite slice_from. destruct g; reflexivity. Qed.
Lemma removelast_length {A} (l : list A) : length (removelast l) = length l - 1.
Proof. rewrite removelast_firstn_len, firstn_length. lia. Qed.
Lemma tl_length {A} (l : list A) : length (tl l) = length l - 1.
Proof. destruct l; cbn; lia. Qed.
Lemma Forall_tl {A} (P : A -> Prop) l : Forall P l -> Forall P (tl l).
Proof. intros H. destruct H; [constructor|assumption]. Qed.
Lemma Forall_removelast {A} (P : A -> Prop) l : Forall P l -> Forall P (removelast l).
Proof. rewrite !Forall_forall. intros H x Hx. apply H. rewrite removelast_firstn_len in Hx. rewrite <- (firstn_skipn (Nat.pred (length l)) l). apply in_or_app. left. exact Hx. Qed.
Lemma Forall_skipn {A} (P : A -> Prop) k l : Forall P l -> Forall P (skipn k l).
Proof. rewrite !Forall_forall. intros H x Hx. apply H. rewrite <- (firstn_skipn k l). apply in_or_app. right. exact Hx. Qed.

(** ** the fields of the counters *)
Section Fields.
  Context (U : udb).
  Notation cn := (count_ngram U).
  Notation multi n := (1 <? ng_order U n).
  Definition k1 (n : ngram) : str := joinsp [WC; joinsp (slice (Some 1%Z) None (ng_tokens U n))].
  Definition k2 (n : ngram) : str := joinsp [WC; joinsp (slice (Some 1%Z) (Some (-1)%Z) (ng_tokens U n)); WC].
  Definition kw (n : ngram) : str := joinsp [joinsp (slice None (Some (-1)%Z) (ng_tokens U n)); WC].
  Lemma f_ngrams l : forall c, k_ngrams (fold_left cn l c) = fold_left (fun d n => append_to_dict_list Nat.eqb d (ng_order U n) n) l (k_ngrams c).
  Proof. induction l as [|n l IH]; intros c; [reflexivity|]. cbn [fold_left]. rewrite IH. reflexivity. Qed.
  Lemma f_wcs l : forall c, k_wcs (fold_left cn l c) = fold_left (fun d n =>
    if 2 <? ng_order U n then cincr str_eqb (k2 n) (if multi n then cincr str_eqb (k1 n) d else d) else (if multi n then cincr str_eqb (k1 n) d else d)) l (k_wcs c).
  Proof. induction l as [|n l IH]; intros c; [reflexivity|]. cbn [fold_left]. rewrite IH. reflexivity. Qed.
  Lemma f_wc1 l : forall c, k_wc1 (fold_left cn l c) = fold_left (fun d n => if multi n && (ng_count n =? 1) then cincr str_eqb (kw n) d else d) l (k_wc1 c).
  Proof. induction l as [|n l IH]; intros c; [reflexivity|]. cbn [fold_left]. rewrite IH. reflexivity. Qed.
  Lemma f_wc2 l : forall c, k_wc2 (fold_left cn l c) = fold_left (fun d n => if multi n && (ng_count n =? 2) then cincr str_eqb (kw n) d else d) l (k_wc2 c).
  Proof. induction l as [|n l IH]; intros c; [reflexivity|]. cbn [fold_left]. rewrite IH. reflexivity. Qed.
  Lemma f_wc3 l : forall c, k_wc3 (fold_left cn l c) = fold_left (fun d n => if multi n && negb (ng_count n =? 1) && negb (ng_count n =? 2) then cincr str_eqb (kw n) d else d) l (k_wc3 c).
  Proof. induction l as [|n l IH]; intros c; [reflexivity|]. cbn [fold_left]. rewrite IH. reflexivity. Qed.
  Lemma f_n1 l : forall c, k_n1 (fold_left cn l c) = fold_left (fun d n => if ng_count n =? 1 then cincr Nat.eqb (ng_order U n) d else d) l (k_n1 c).
  Proof. induction l as [|n l IH]; intros c; [reflexivity|]. cbn [fold_left]. rewrite IH. reflexivity. Qed.
  Lemma f_n2 l : forall c, k_n2 (fold_left cn l c) = fold_left (fun d n => if ng_count n =? 2 then cincr Nat.eqb (ng_order U n) d else d) l (k_n2 c).
  Proof. induction l as [|n l IH]; intros c; [reflexivity|]. cbn [fold_left]. rewrite IH. reflexivity. Qed.
  Lemma f_n3 l : forall c, k_n3 (fold_left cn l c) = fold_left (fun d n => if ng_count n =? 3 then cincr Nat.eqb (ng_order U n) d else d) l (k_n3 c).
  Proof. induction l as [|n l IH]; intros c; [reflexivity|]. cbn [fold_left]. rewrite IH. reflexivity. Qed.
  Lemma f_n4 l : forall c, k_n4 (fold_left cn l c) = fold_left (fun d n => if ng_count n =? 4 then cincr Nat.eqb (ng_order U n) d else d) l (k_n4 c).
  Proof. induction l as [|n l IH]; intros c; [reflexivity|]. cbn [fold_left]. rewrite IH. reflexivity. Qed.
  Lemma cget_wcs k l : forall d, cget str_eqb k (fold_left (fun d n =>
    if 2 <? ng_order U n then cincr str_eqb (k2 n) (if multi n then cincr str_eqb (k1 n) d else d) else (if multi n then cincr str_eqb (k1 n) d else d)) l d) =
    cget str_eqb k d + length (filter (fun n => multi n && str_eqb k (k1 n)) l) + length (filter (fun n => (2 <? ng_order U n) && str_eqb k (k2 n)) l).
  Proof.
    induction l as [|n l IH]; intros d; [cbn; lia|]. cbn [fold_left filter]. rewrite IH.
    destruct (2 <? ng_order U n), (multi n); cbn [andb]; rewrite ?(cget_incr _ str_eqb_ok); destruct (str_eqb k (k1 n)), (str_eqb k (k2 n)); cbn [length]; lia.
  Qed.
End Fields.

Section Mkn.
  Context (U : udb) (OK : udb_ok U) (M : nat) (tts : list (list (list str))).
  Notation sents := (sents tts).
  Notation mk := (mk U tts).
  Notation corpus := (corpus U M tts).
  Notation types := (types U sents).
  Notation cnt := (cnt U sents).
  Notation c := (fold_left (count_ngram U) corpus no_counts).

  Lemma corpus_tokens n : In n corpus -> exists o, 1 <= o <= M /\ ng_order U n = o /\ In (ng_tokens U n) (types o) /\ n = mk (ng_tokens U n).
  Proof.
    intros H. apply (In_corpus U OK) in H. destruct H as (o & g & Ho & Hg & ->). pose proof (types_tokenish U OK tts o g Hg) as Ht. pose proof (types_length U tts o g (proj1 Ho) Hg) as Hl.
    exists o. rewrite tokens_mk by assumption. rewrite order_mk by assumption. auto.
  Qed.
  Lemma tokenish_WC g : Forall (tokenish U) g -> Forall (tokenish U) (WC :: g).
  Proof. intros H. constructor; [apply WC_tokenish; exact OK|exact H]. Qed.
  Lemma tokenish_snoc g w : Forall (tokenish U) g -> tokenish U w -> Forall (tokenish U) (g ++ [w]).
  Proof. intros H Hw. apply Forall_app. split; [exact H|]. constructor; [exact Hw|constructor]. Qed.
  Lemma tokenish_snocWC g : Forall (tokenish U) g -> Forall (tokenish U) (g ++ [WC]).
  Proof. intros H. apply tokenish_snoc; [exact H|apply WC_tokenish; exact OK]. Qed.
  Lemma plain_no_WC g : Forall plain g -> ~ In WC g.
  Proof. rewrite Forall_forall. intros H F. apply H in F. apply (plain_not_WC _ F). reflexivity. Qed.
  Lemma plain_tok g : Forall plain g -> Forall (tokenish U) g.
  Proof. intros H. eapply Forall_impl; [|exact H]. intros w. apply plain_tokenish. exact OK. Qed.

  (** keys *)
  Lemma k1_eq n : In n corpus -> 1 < ng_order U n -> k1 U n = spaced (WC :: tl (ng_tokens U n)).
  Proof.
    intros _ Ho. unfold k1. rewrite slice_tl. apply joinsp_cons. unfold ng_order in Ho. intros E. apply (f_equal (@length str)) in E. rewrite tl_length in E. cbn in E. lia.
  Qed.
  Lemma k2_eq n : In n corpus -> 2 < ng_order U n -> k2 U n = spaced (WC :: removelast (tl (ng_tokens U n)) ++ [WC]).
  Proof.
    intros _ Ho. unfold k2, ng_order in *. rewrite slice_mid by lia. apply joinsp_both. intros E. apply (f_equal (@length str)) in E. rewrite removelast_length, tl_length in E. cbn in E. lia.
  Qed.
  Lemma kw_eq n : In n corpus -> 1 < ng_order U n -> kw U n = spaced (removelast (ng_tokens U n) ++ [WC]).
  Proof.
    intros _ Ho. unfold kw, ng_order in *. rewrite slice_removelast. apply joinsp_snoc. intros E. apply (f_equal (@length str)) in E. rewrite removelast_length in E. cbn in E. lia.
  Qed.

  (** the counters of wildcards *)
  Lemma wcs_preceding g : Forall plain g -> 1 <= length g -> S (length g) <= M -> cget str_eqb (spaced (WC :: g)) (k_wcs c) = preceding U sents g.
  Proof.
    intros Hp Hg Hl. rewrite f_wcs, cget_wcs. cbn [no_counts k_wcs]. change (cget str_eqb (spaced (WC :: g)) []) with 0.
    rewrite (filter_false (fun n => (2 <? ng_order U n) && _)).
    2:{ intros n Hn. destruct (Nat.ltb_spec 2 (ng_order U n)) as [Ho|Ho]; [|reflexivity]. cbn [andb]. apply str_eqb_neq. rewrite k2_eq by assumption. intros E.
      destruct (corpus_tokens n Hn) as (o & Ho1 & Ho2 & Hti & _). pose proof (types_tokenish U OK tts o _ Hti) as Ht.
      apply (spaced_inj U OK) in E; [|apply tokenish_WC, plain_tok; exact Hp|apply tokenish_WC, tokenish_snocWC, Forall_removelast, Forall_tl; exact Ht].
      injection E as E. apply (plain_no_WC g Hp). rewrite E. apply in_or_app. right. left. reflexivity. }
    cbn [length]. rewrite Nat.add_0_r. cbn [Nat.add]. rewrite (count_corpus U OK M tts (S (length g))) by (first [lia |
      intros n Hn H; apply andb_true_iff in H; destruct H as [H1 H2]; apply Nat.ltb_lt in H1; apply str_eqb_eq in H2; rewrite k1_eq in H2 by assumption;
      destruct (corpus_tokens n Hn) as (o & Ho1 & Ho2 & Hti & _); pose proof (types_tokenish U OK tts o _ Hti) as Ht;
      apply (spaced_inj U OK) in H2; [|apply tokenish_WC, plain_tok; exact Hp|apply tokenish_WC, Forall_tl; exact Ht];
      injection H2 as H2; rewrite H2, tl_length; unfold ng_order in *; lia]).
    unfold preceding, how_many. f_equal. apply filter_ext_in. intros h Hh. pose proof (types_tokenish U OK tts _ h Hh) as Ht. pose proof (types_length U tts _ h (le_n_S 0 _ (Nat.le_0_l _)) Hh) as Hlh.
    rewrite order_mk by assumption. rewrite Hlh. destruct (Nat.ltb_spec 1 (S (length g))); [|lia]. cbn [andb].
    rewrite k1_eq; [|apply (In_corpus U OK); exists (S (length g)), h; repeat split; auto; lia|rewrite order_mk by assumption; lia].
    rewrite tokens_mk by assumption. destruct (words_eqb (tl h) g) eqn:E.
    - apply words_eqb_eq in E. rewrite E. apply str_eqb_refl.
    - apply str_eqb_neq. intros F. apply (spaced_inj U OK) in F; [|apply tokenish_WC, plain_tok; exact Hp|apply tokenish_WC, Forall_tl; exact Ht].
      injection F as F. rewrite F in E. rewrite words_eqb_refl in E. discriminate.
  Qed.
  Lemma wcs_around g : Forall plain g -> 1 <= length g -> S (S (length g)) <= M -> cget str_eqb (spaced (WC :: g ++ [WC])) (k_wcs c) = around U sents g.
  Proof.
    intros Hp Hg Hl. rewrite f_wcs, cget_wcs. cbn [no_counts k_wcs]. change (cget str_eqb (spaced (WC :: g ++ [WC])) []) with 0.
    rewrite (filter_false (fun n => (1 <? ng_order U n) && _)).
    2:{ intros n Hn. destruct (Nat.ltb_spec 1 (ng_order U n)) as [Ho|Ho]; [|reflexivity]. cbn [andb]. apply str_eqb_neq. rewrite k1_eq by assumption. intros E.
      destruct (corpus_tokens n Hn) as (o & Ho1 & Ho2 & Hti & _). pose proof (types_tokenish U OK tts o _ Hti) as Ht. pose proof (types_plain U OK tts o _ Hti) as Htp.
      apply (spaced_inj U OK) in E; [|apply tokenish_WC, tokenish_snocWC, plain_tok; exact Hp|apply tokenish_WC, Forall_tl; exact Ht].
      injection E as E. apply (plain_no_WC (tl (ng_tokens U n))); [apply Forall_tl; exact Htp|]. rewrite <- E. apply in_or_app. right. left. reflexivity. }
    cbn [length Nat.add]. rewrite (count_corpus U OK M tts (S (S (length g)))) by (first [lia |
      intros n Hn H; apply andb_true_iff in H; destruct H as [H1 H2]; apply Nat.ltb_lt in H1; apply str_eqb_eq in H2; rewrite k2_eq in H2 by assumption;
      destruct (corpus_tokens n Hn) as (o & Ho1 & Ho2 & Hti & _); pose proof (types_tokenish U OK tts o _ Hti) as Ht;
      apply (spaced_inj U OK) in H2; [|apply tokenish_WC, tokenish_snocWC, plain_tok; exact Hp|apply tokenish_WC, tokenish_snocWC, Forall_removelast, Forall_tl; exact Ht];
      injection H2 as H2; apply app_inj_tail in H2; destruct H2 as [H2 _]; rewrite H2, removelast_length, tl_length; unfold ng_order in *; lia]).
    unfold around, how_many. f_equal. apply filter_ext_in. intros h Hh. pose proof (types_tokenish U OK tts _ h Hh) as Ht. pose proof (types_length U tts _ h (le_n_S 0 _ (Nat.le_0_l _)) Hh) as Hlh.
    rewrite order_mk by assumption. rewrite Hlh. destruct (Nat.ltb_spec 2 (S (S (length g)))); [|lia]. cbn [andb].
    rewrite k2_eq; [|apply (In_corpus U OK); exists (S (S (length g))), h; repeat split; auto; lia|rewrite order_mk by assumption; lia].
    rewrite tokens_mk by assumption. destruct (words_eqb (removelast (tl h)) g) eqn:E.
    - apply words_eqb_eq in E. rewrite E. apply str_eqb_refl.
    - apply str_eqb_neq. intros F. apply (spaced_inj U OK) in F; [|apply tokenish_WC, tokenish_snocWC, plain_tok; exact Hp|apply tokenish_WC, tokenish_snocWC, Forall_removelast, Forall_tl; exact Ht].
      injection F as F. apply app_inj_tail in F. destruct F as [F _]. rewrite F in E. rewrite words_eqb_refl in E. discriminate.
  Qed.
  Lemma wc_following g (p : nat -> bool) (b : ngram -> bool) : Forall plain g -> 1 <= length g -> S (length g) <= M ->
    (forall n, In n corpus -> b n = (1 <? ng_order U n) && p (ng_count n)) ->
    length (filter (fun n => b n && str_eqb (spaced (g ++ [WC])) (kw U n)) corpus) = following U sents g p.
  Proof.
    intros Hp Hg Hl Hb. rewrite (count_corpus U OK M tts (S (length g))) by (first [lia |
      intros n Hn H; rewrite Hb in H by assumption; rewrite !andb_true_iff in H; destruct H as [[H1 _] H2]; apply Nat.ltb_lt in H1; apply str_eqb_eq in H2; rewrite kw_eq in H2 by assumption;
      destruct (corpus_tokens n Hn) as (o & Ho1 & Ho2 & Hti & _); pose proof (types_tokenish U OK tts o _ Hti) as Ht;
      apply (spaced_inj U OK) in H2; [|apply tokenish_snocWC, plain_tok; exact Hp|apply tokenish_snocWC, Forall_removelast; exact Ht];
      apply app_inj_tail in H2; destruct H2 as [H2 _]; rewrite H2, removelast_length; unfold ng_order in *; lia]).
    unfold following, how_many. f_equal. apply filter_ext_in. intros h Hh. pose proof (types_tokenish U OK tts _ h Hh) as Ht. pose proof (types_length U tts _ h (le_n_S 0 _ (Nat.le_0_l _)) Hh) as Hlh.
    assert (Hin : In (mk h) corpus) by (apply (In_corpus U OK); exists (S (length g)), h; repeat split; auto; lia).
    rewrite Hb by exact Hin. rewrite order_mk by assumption. rewrite Hlh. destruct (Nat.ltb_spec 1 (S (length g))); [|lia]. cbn [andb mk ng_count].
    rewrite andb_comm. f_equal. rewrite kw_eq; [|exact Hin|rewrite order_mk by assumption; lia]. rewrite tokens_mk by assumption. destruct (words_eqb (removelast h) g) eqn:E.
    - apply words_eqb_eq in E. rewrite E. apply str_eqb_refl.
    - apply str_eqb_neq. intros F. apply (spaced_inj U OK) in F; [|apply tokenish_snocWC, plain_tok; exact Hp|apply tokenish_snocWC, Forall_removelast; exact Ht].
      apply app_inj_tail in F. destruct F as [F _]. rewrite F in E. rewrite words_eqb_refl in E. discriminate.
  Qed.
  Lemma wc1_following g : Forall plain g -> 1 <= length g -> S (length g) <= M -> cget str_eqb (spaced (g ++ [WC])) (k_wc1 c) = following U sents g (Nat.eqb 1).
  Proof.
    intros Hp Hg Hl. rewrite f_wc1, (cget_fold _ str_eqb_ok). cbn [no_counts k_wc1]. change (cget str_eqb (spaced (g ++ [WC])) []) with 0. cbn [Nat.add].
    apply (wc_following g (Nat.eqb 1) (fun n => (1 <? ng_order U n) && (ng_count n =? 1))); auto. intros n _. rewrite (Nat.eqb_sym 1). reflexivity.
  Qed.
  Lemma wc2_following g : Forall plain g -> 1 <= length g -> S (length g) <= M -> cget str_eqb (spaced (g ++ [WC])) (k_wc2 c) = following U sents g (Nat.eqb 2).
  Proof.
    intros Hp Hg Hl. rewrite f_wc2, (cget_fold _ str_eqb_ok). cbn [no_counts k_wc2]. change (cget str_eqb (spaced (g ++ [WC])) []) with 0. cbn [Nat.add].
    apply (wc_following g (Nat.eqb 2) (fun n => (1 <? ng_order U n) && (ng_count n =? 2))); auto. intros n _. rewrite (Nat.eqb_sym 2). reflexivity.
  Qed.
  Lemma corpus_count_pos n : In n corpus -> 1 <= ng_count n.
  Proof. intros H. apply (In_corpus U OK) in H. destruct H as (o & g & Ho & Hg & ->). cbn [mk ng_count]. eapply cnt_pos; [|exact Hg]. lia. Qed.
  Lemma wc3_following g : Forall plain g -> 1 <= length g -> S (length g) <= M -> cget str_eqb (spaced (g ++ [WC])) (k_wc3 c) = following U sents g (Nat.leb 3).
  Proof.
    intros Hp Hg Hl. rewrite f_wc3, (cget_fold _ str_eqb_ok). cbn [no_counts k_wc3]. change (cget str_eqb (spaced (g ++ [WC])) []) with 0. cbn [Nat.add].
    apply (wc_following g (Nat.leb 3) (fun n => (1 <? ng_order U n) && negb (ng_count n =? 1) && negb (ng_count n =? 2))); auto. intros n Hn. rewrite <- andb_assoc. f_equal.
    pose proof (corpus_count_pos n Hn). destruct (Nat.eqb_spec (ng_count n) 1), (Nat.eqb_spec (ng_count n) 2), (Nat.leb_spec 3 (ng_count n)); try reflexivity; lia.
  Qed.
  (** the counts of counts *)
  Lemma n_with_count o r : 1 <= o <= M -> length (filter (fun n => (ng_count n =? r) && (o =? ng_order U n)) corpus) = with_count U sents o r.
  Proof.
    intros Ho. rewrite (count_corpus U OK M tts o) by (first [lia | intros n Hn H; apply andb_true_iff in H; destruct H as [_ H]; apply Nat.eqb_eq in H; congruence]).
    unfold with_count, how_many. f_equal. apply filter_ext_in. intros h Hh. pose proof (types_tokenish U OK tts _ h Hh) as Ht. pose proof (types_length U tts _ h (proj1 Ho) Hh) as Hlh.
    rewrite order_mk by assumption. rewrite Hlh, Nat.eqb_refl, andb_true_r. reflexivity.
  Qed.
  Lemma n1_count o : 1 <= o <= M -> cget Nat.eqb o (k_n1 c) = with_count U sents o 1.
  Proof. intros H. rewrite f_n1, (cget_fold _ nateqb_ok). apply n_with_count. exact H. Qed.
  Lemma n2_count o : 1 <= o <= M -> cget Nat.eqb o (k_n2 c) = with_count U sents o 2.
  Proof. intros H. rewrite f_n2, (cget_fold _ nateqb_ok). apply n_with_count. exact H. Qed.
  Lemma n3_count o : 1 <= o <= M -> cget Nat.eqb o (k_n3 c) = with_count U sents o 3.
  Proof. intros H. rewrite f_n3, (cget_fold _ nateqb_ok). apply n_with_count. exact H. Qed.
  Lemma n4_count o : 1 <= o <= M -> cget Nat.eqb o (k_n4 c) = with_count U sents o 4.
  Proof. intros H. rewrite f_n4, (cget_fold _ nateqb_ok). apply n_with_count. exact H. Qed.
  (** ngrams by order *)
  Lemma ngrams_group : k_ngrams c = group Nat.eqb (map (fun n => (ng_order U n, n)) corpus).
  Proof.
    rewrite f_ngrams. cbn [no_counts k_ngrams]. unfold group. generalize (@nil (nat * list ngram)). induction corpus as [|n l IH]; intros d; [reflexivity|]. cbn [map fold_left]. apply IH.
  Qed.
  Lemma ngrams_order o : 1 <= o <= M -> get_order_or_nil (k_ngrams c) o = map mk (types o).
  Proof. intros H. unfold get_order_or_nil. rewrite ngrams_group, group_orders, (corpus_order U OK) by exact H. destruct (map mk (types o)); reflexivity. Qed.

  (** ** lookup *)
  Lemma dset_fold_get (l : list ngram) n : (forall m, In m l -> ng_text m = ng_text n -> m = n) -> In n l ->
    forall d, dget str_eqb (ng_text n) (fold_left (fun d n => dset str_eqb (ng_text n) n d) l d) = Some n.
  Proof.
    intros Hu. induction l as [|x l IH] using rev_ind; intros Hin d; [destruct Hin|]. rewrite fold_left_app. cbn [fold_left]. rewrite (dget_dset _ str_eqb_ok).
    destruct (str_eqb (ng_text n) (ng_text x)) eqn:E.
    - apply str_eqb_eq in E. f_equal. apply Hu; [apply in_or_app; right; left; reflexivity|congruence].
    - apply IH; [intros m Hm; apply Hu; apply in_or_app; left; exact Hm|]. apply in_app_or in Hin. destruct Hin as [H|[H|[]]]; [exact H|]. subst. rewrite str_eqb_refl in E. discriminate.
  Qed.
  Lemma In_grouped n : In n (concat (dvalues (k_ngrams c))) <-> In n corpus.
  Proof.
    rewrite ngrams_group. set (l := map (fun n => (ng_order U n, n)) corpus). rewrite in_concat. split.
    - intros (x & Hx & Hn). unfold dvalues in Hx. apply in_map_iff in Hx. destruct Hx as ([k v] & Ev & Hkv). cbn in Ev. subst v.
      assert (Hnd : NoDup (dkeys (group Nat.eqb l))) by (rewrite (proj1 (group_spec Nat.eqb nateqb_ok l)); apply (NoDup_firsts Nat.eqb nateqb_ok)).
      apply (In_dget _ nateqb_ok) in Hkv; [|exact Hnd]. unfold l in Hkv. rewrite group_orders in Hkv. destruct (of_order U k corpus) as [|y ys] eqn:E; [discriminate|]. injection Hkv as <-.
      rewrite <- E in Hn. apply filter_In in Hn. apply Hn.
    - intros Hn. exists (of_order U (ng_order U n) corpus). assert (Hi : In n (of_order U (ng_order U n) corpus)) by (apply filter_In; split; [exact Hn|apply Nat.eqb_refl]).
      split; [|exact Hi]. unfold dvalues. apply in_map_iff. exists (ng_order U n, of_order U (ng_order U n) corpus). split; [reflexivity|].
      apply (dget_In _ nateqb_ok). unfold l. rewrite group_orders. destruct (of_order U (ng_order U n) corpus); [destruct Hi|reflexivity].
  Qed.
  Definition lookup_table := fold_left (fun d n => dset str_eqb (ng_text n) n d) (concat (dvalues (k_ngrams c))) [].
  Lemma lookup_mk o g : 1 <= o <= M -> In g (types o) -> dget str_eqb (spaced g) lookup_table = Some (mk g).
  Proof.
    intros Ho Hg. assert (Hin : In (mk g) corpus) by (apply (In_corpus U OK); eauto).
    apply (dset_fold_get (concat (dvalues (k_ngrams c))) (mk g)).
    - intros m Hm E. apply In_grouped in Hm. apply (corpus_text_inj U OK M tts); assumption.
    - apply In_grouped. exact Hin.
  Qed.

  (** ** discounts *)
  Notation n_ o r := (with_count U sents o r).
  Definition rich (o : nat) : bool := negb (existsb (fun x => x =? 0) [n_ o 1; n_ o 2; n_ o 3; n_ o 4]).
  Lemma discounts_ok o : 2 <= o <= M -> discounts_of c o = if rich o then Ok (D1 U sents o, D2 U sents o, D3 U sents o) else Err MKNNotEnoughDataError.
  Proof.
    intros Ho. unfold discounts_of, rich. rewrite n1_count, n2_count, n3_count, n4_count by lia. destruct (existsb (fun x => x =? 0) [n_ o 1; n_ o 2; n_ o 3; n_ o 4]) eqn:E; [reflexivity|].
    cbn [negb]. cbn [existsb] in E. rewrite !orb_false_iff, !Nat.eqb_neq in E. destruct E as (E1 & E2 & E3 & E4 & _).
    assert (P1 : (0 < Qn (n_ o 1))%Q) by (apply Qn_pos; lia). assert (P2 : (0 < Qn (n_ o 2))%Q) by (apply Qn_pos; lia). assert (P3 : (0 < Qn (n_ o 3))%Q) by (apply Qn_pos; lia).
    rewrite qdiv_pos. 2:{ apply Qlt_le_trans with (Qn (n_ o 1)); [exact P1|]. rewrite <- (Qplus_0_r (Qn (n_ o 1))) at 1. apply Qplus_le_r. apply Qmult_le_0_compat; [discriminate|apply Qn_nonneg]. }
    cbn [rbind]. rewrite !qdiv_pos by assumption. cbn [rbind]. reflexivity.
  Qed.
  Definition dtables := ((map (fun o => (o, D1 U sents o)) (seq 2 (M - 1)), map (fun o => (o, D2 U sents o)) (seq 2 (M - 1)), map (fun o => (o, D3 U sents o)) (seq 2 (M - 1))) : dict nat Q * dict nat Q * dict nat Q).
  Lemma dget_table (f : nat -> Q) a k o : dget Nat.eqb o (map (fun o => (o, f o)) (seq a k)) = if (a <=? o) && (o <? a + k) then Some (f o) else None.
  Proof.
    revert a. induction k as [|k IH]; intros a; cbn [seq map dget].
    - destruct (Nat.leb_spec a o); destruct (Nat.ltb_spec o (a + 0)); try reflexivity; lia.
    - destruct (Nat.eqb_spec o a) as [->|H].
      + destruct (Nat.leb_spec a a); [|lia]. destruct (Nat.ltb_spec a (a + S k)); [reflexivity|lia].
      + rewrite IH. destruct (Nat.leb_spec (S a) o), (Nat.leb_spec a o), (Nat.ltb_spec o (S a + k)), (Nat.ltb_spec o (a + S k)); try reflexivity; lia.
  Qed.
  Definition mkn_state : mkn := {| mk_counts := c; mk_last_order := M; mk_d1 := fst (fst dtables); mk_d2 := snd (fst dtables); mk_d3 := snd dtables; mk_lookup := lookup_table |}.
  Lemma mkn_init_ok : mkn_init U corpus M = if forallb rich (seq 2 (M - 1)) then Ok mkn_state else Err MKNNotEnoughDataError.
  Proof.
    unfold mkn_init.
    set (step := fun '(d1, d2, d3) order => let! (v1, v2, v3) := discounts_of c order in Ok (dset Nat.eqb order v1 d1, dset Nat.eqb order v2 d2, dset Nat.eqb order v3 d3)).
    assert (Hstep : forall x y z o, step (x, y, z) o = let! (v1, v2, v3) := discounts_of c o in Ok (dset Nat.eqb o v1 x, dset Nat.eqb o v2 y, dset Nat.eqb o v3 z)) by reflexivity.
    assert (G : forall k a, 2 <= a -> a + k <= S M -> 
      foldM step (map (fun o => (o, D1 U sents o)) (seq 2 (a - 2)), map (fun o => (o, D2 U sents o)) (seq 2 (a - 2)), map (fun o => (o, D3 U sents o)) (seq 2 (a - 2))) (seq a k) =
      if forallb rich (seq a k) then Ok (map (fun o => (o, D1 U sents o)) (seq 2 (a - 2 + k)), map (fun o => (o, D2 U sents o)) (seq 2 (a - 2 + k)), map (fun o => (o, D3 U sents o)) (seq 2 (a - 2 + k)))
      else Err MKNNotEnoughDataError).
    { induction k as [|k IH]; intros a Ha Hk; [cbn; rewrite Nat.add_0_r; reflexivity|]. cbn [seq foldM forallb]. rewrite Hstep. rewrite discounts_ok by lia.
      destruct (rich a); [|reflexivity]. cbn [rbind andb].
      assert (Hs : forall (f : nat -> Q), dset Nat.eqb a (f a) (map (fun o => (o, f o)) (seq 2 (a - 2))) = map (fun o => (o, f o)) (seq 2 (S a - 2))).
      { intros f. rewrite dset_new. 2:{ rewrite dget_table. destruct (Nat.ltb_spec a (2 + (a - 2))); [lia|]. rewrite andb_false_r. reflexivity. }
        replace (S a - 2) with (S (a - 2)) by lia. rewrite seq_S, map_app. cbn [map]. replace (2 + (a - 2)) with a by lia. reflexivity. }
      rewrite !Hs. rewrite IH by lia. replace (S a - 2 + k) with (a - 2 + S k) by lia. reflexivity. }
    specialize (G (M - 1) 2 (le_n 2)). destruct (Nat.le_gt_cases M 0) as [HM|HM].
    - replace (M - 1) with 0 by lia. cbn [seq foldM rbind forallb]. unfold mkn_state, dtables. replace (M - 1) with 0 by lia. reflexivity.
    - change (2 - 2) with 0 in G. cbn [seq map Nat.add] in G. rewrite G by lia. destruct (forallb rich (seq 2 (M - 1))); [|reflexivity]. reflexivity.
  Qed.
End Mkn.
