(** The files of a smoothed corpus: what is written and that it loads back. *)
From Coq Require Import Ascii String.
From Coq Require Import List NArith ZArith QArith Qabs Arith Bool Lia Permutation.
From Verif Require Import PyBase Regex MUtils SUtils LBase LText LUtils MNgram SLangModel LNgram MLangModel LLangModel MSmooth MBuilder LSmooth LCorpus LMkn LMkn2 LSave.
Import ListNotations.
Local Open Scope nat_scope.

Definition positive (q : Q) : bool := negb (Qle_bool q 0).
Lemma positive_lt q : positive q = true <-> (0 < q)%Q.
Proof. unfold positive. destruct (Qle_bool q 0) eqn:E; cbn; split; intros H; try discriminate; [apply Qle_bool_iff in E; exfalso; apply (Qlt_irrefl 0); eapply Qlt_le_trans; eassumption| |reflexivity]. apply Qnot_le_lt. intros F. apply Qle_bool_iff in F. congruence. Qed.
Definition kept (ps : list (ngram * Q)) : list (ngram * Q) := filter (fun np => positive (snd np)) (isort (fun x y => Qle_bool (snd y) (snd x)) ps).
Lemma write_kept {A} (f : A -> ngram) (p : A -> Q) l : (forall x, ng_proba (f x) = Some (p x)) ->
  write_ngram_file (map f l) = Ok (flat_map (fun l => l ++ [10%N]) (map line_of (kept (map (fun x => (f x, p x)) l)))).
Proof.
  intros H. unfold write_ngram_file.
  assert (E : mapM (fun n => let! p0 := get_proba n in Ok (n, p0)) (map f l) = Ok (map (fun x => (f x, p x)) l)).
  { induction l as [|x l IH]; [reflexivity|]. cbn [map mapM]. unfold get_proba at 1. rewrite H. cbn [of_option rbind]. rewrite IH. reflexivity. }
  rewrite E. cbn [rbind]. f_equal. unfold kept. induction (isort _ _) as [|[n q] s IH]; [reflexivity|]. cbn [flat_map filter snd]. change (negb (Qle_bool q 0)) with (positive q).
  destruct (positive q); [|exact IH]. cbn [map flat_map]. rewrite IH. f_equal. unfold line_of. cbn [fst snd app]. rewrite <- !app_assoc. cbn [app]. rewrite <- !app_assoc. reflexivity.
Qed.
Lemma In_kept np ps : In np (kept ps) <-> In np ps /\ (0 < snd np)%Q.
Proof.
  unfold kept. rewrite filter_In, positive_lt. split; intros [H1 H2]; (split; [|exact H2]).
  - eapply Permutation_in; [apply Permutation_sym, isort_perm|exact H1].
  - eapply Permutation_in; [apply isort_perm|exact H1].
Qed.
Lemma NoDup_filter_map {A B} (f : A -> B) p l : NoDup (map f l) -> NoDup (map f (filter p l)).
Proof.
  induction l as [|x l IH]; intros H; [constructor|]. cbn in *. inversion H; subst. destruct (p x); [|auto]. cbn. constructor; [|auto].
  intros F. apply in_map_iff in F. destruct F as (y & E & Hy). apply filter_In in Hy. apply H2. rewrite <- E. apply in_map. tauto.
Qed.
Lemma kept_NoDup ps : NoDup (map (fun np => ng_text (fst np)) ps) -> NoDup (map (fun np => ng_text (fst np)) (kept ps)).
Proof. intros H. apply NoDup_filter_map. eapply Permutation_NoDup; [|exact H]. apply Permutation_map, isort_perm. Qed.
Lemma NoDup_app_intro {A} (l m : list A) : NoDup l -> NoDup m -> (forall x, In x l -> ~ In x m) -> NoDup (l ++ m).
Proof.
  induction l as [|x l IH]; intros Hl Hm Hd; [exact Hm|]. inversion Hl; subst. cbn. constructor.
  - intros F. apply in_app_or in F. destruct F as [F|F]; [contradiction|]. apply (Hd x); [left; reflexivity|exact F].
  - apply IH; try assumption. intros y Hy. apply Hd. right. exact Hy.
Qed.
Lemma NoDup_map_inj {A B} (f : A -> B) l : NoDup l -> (forall x y, In x l -> In y l -> f x = f y -> x = y) -> NoDup (map f l).
Proof.
  induction 1 as [|x l Hx _ IH]; intros Hi; [constructor|]. cbn. constructor; [|apply IH; intros; apply Hi; auto with datatypes].
  intros F. apply in_map_iff in F. destruct F as (y & E & Hy). apply Hi in E; [subst; contradiction|right; exact Hy|left; reflexivity].
Qed.

Section Saved.
  Context (U : udb) (OK : udb_ok U) (tts : list (list (list str))) (pr : nat -> list str -> Q).
  Notation sents := (sents tts).
  Definition entry (o : nat) (g : list str) : ngram := {| ng_text := spaced g; ng_count := cnt U sents g; ng_proba := Some (pr o g) |}.
  Definition order_pairs (o : nat) : list (ngram * Q) := map (fun g => (entry o g, pr o g)) (types U sents o).
  Lemma spaced_clean g : Forall (tokenish U) g -> clean (spaced g).
  Proof.
    intros H. assert (G : forall c, In c (spaced g) -> c = 32%N \/ u_space U c = false).
    { induction H as [|w g Hw _ IH]; [intros c []|]. unfold spaced in *. intros c Hc.
      assert (Hw' : In c w -> u_space U c = false) by (intros F; destruct Hw as [_ Hw]; rewrite Forall_forall in Hw; apply Hw; exact F).
      destruct g as [|w' g]; [cbn in Hc; try rewrite app_nil_r in Hc; auto|]. change (join (lit " ") (w :: w' :: g)) with (w ++ lit " " ++ join (lit " ") (w' :: g)) in Hc.
      apply in_app_or in Hc. destruct Hc as [Hc|Hc]; [auto|]. apply in_app_or in Hc. destruct Hc as [[<-|[]]|Hc]; [left; reflexivity|apply IH; exact Hc]. }
    split; intros F; apply G in F; (destruct F as [F|F]; [discriminate|]); rewrite (ok_space _ OK) in F by lia; discriminate.
  Qed.
  Lemma entry_text_order o g : 1 <= o -> In g (types U sents o) -> length (split_ws (u_space U) (spaced g)) = o.
  Proof. intros Ho Hg. rewrite (tokens_spaced U OK) by (eapply types_tokenish; [exact OK|exact Hg]). eapply types_length; eassumption. Qed.
  Lemma order_NoDup o : NoDup (map (fun np => ng_text (fst np)) (order_pairs o)).
  Proof.
    unfold order_pairs. rewrite map_map. cbn [fst entry ng_text]. apply NoDup_map_inj; [apply NoDup_types|]. intros x y Hx Hy E. apply (spaced_inj U OK) in E; [exact E| |]; eapply types_tokenish; eassumption.
  Qed.
  Lemma all_NoDup a k : 1 <= a -> NoDup (map (fun np => ng_text (fst np)) (concat (map (fun o => kept (order_pairs o)) (seq a k)))).
  Proof.
    revert a. induction k as [|k IH]; intros a Ha; [constructor|]. cbn [seq map concat]. rewrite map_app. apply NoDup_app_intro; [apply kept_NoDup, order_NoDup|apply IH; lia|].
    assert (G : forall o t, 1 <= o -> In t (map (fun np => ng_text (fst np)) (kept (order_pairs o))) -> length (split_ws (u_space U) t) = o).
    { intros o t Ho F. apply in_map_iff in F. destruct F as (np & <- & F). apply In_kept in F. destruct F as [F _]. apply in_map_iff in F. destruct F as (g & <- & Hg). apply entry_text_order; assumption. }
    intros t H1 H2. apply G in H1; [|exact Ha]. apply in_map_iff in H2. destruct H2 as (np & <- & H2). apply in_concat in H2. destruct H2 as (l & Hl & H2). apply in_map_iff in Hl. destruct Hl as (o & <- & Ho). apply in_seq in Ho.
    assert (H3 : length (split_ws (u_space U) (ng_text (fst np))) = o). { apply G; [lia|]. apply in_map_iff. exists np. auto. } lia.
  Qed.
  Context (M : nat) (d : by_order) (Hd : forall o, 1 <= o <= M -> get_order_or_nil d o = map (entry o) (types U sents o)).
  Lemma saved_contents : mapM (fun n => write_ngram_file (get_order_or_nil d n)) (seq 1 M) = Ok (map (fun o => flat_map (fun l => l ++ [10%N]) (map line_of (kept (order_pairs o)))) (seq 1 M)).
  Proof.
    apply mapM_all. intros o Ho. apply in_seq in Ho. rewrite Hd by lia. apply write_kept. reflexivity.
  Qed.
  Lemma saved_loads L (log : Q -> res L) : (forall q, (0 < q)%Q -> exists l, log q = Ok l) ->
    (forall o g, 1 <= o <= M -> In g (types U sents o) -> (0 < pr o g)%Q -> (half17 < pr o g)%Q) ->
    exists m, load_lm U Q L Qle_bool (float_of_str (u_space U)) log (repeat 1%Z M)
      (map file_lines (map (fun o => flat_map (fun l => l ++ [10%N]) (map line_of (kept (order_pairs o)))) (seq 1 M))) = Ok m /\
      (forall text det, dget str_eqb text (lm_details m) = Some det -> exists o g, 1 <= o <= M /\ In g (types U sents o) /\ (0 < pr o g)%Q /\ spaced g = text /\ match_det L log (entry o g, pr o g) det) /\
      (forall o g, 1 <= o <= M -> In g (types U sents o) -> (0 < pr o g)%Q -> exists det, dget str_eqb (spaced g) (lm_details m) = Some det /\ match_det L log (entry o g, pr o g) det).
  Proof.
    intros Hlog Hbig. assert (Hin : forall np, In np (concat (map (fun o => kept (order_pairs o)) (seq 1 M))) <-> exists o g, 1 <= o <= M /\ In g (types U sents o) /\ (0 < pr o g)%Q /\ np = (entry o g, pr o g)).
    { intros np. rewrite in_concat. split.
      - intros (l & Hl & H). apply in_map_iff in Hl. destruct Hl as (o & <- & Ho). apply in_seq in Ho. apply In_kept in H. destruct H as [H Hp]. apply in_map_iff in H. destruct H as (g & <- & Hg). exists o, g. cbn in Hp. repeat split; try assumption; lia.
      - intros (o & g & Ho & Hg & Hp & ->). exists (kept (order_pairs o)). split; [apply in_map_iff; exists o; split; [reflexivity|apply in_seq; lia]|]. apply In_kept. split; [apply in_map_iff; exists g; auto|exact Hp]. }
    destruct (load_files_ok U OK L log Hlog (map (fun o => kept (order_pairs o)) (seq 1 M))) as (m & E & H1 & H2).
    - apply Forall_forall. intros np H. apply Hin in H. destruct H as (o & g & Ho & Hg & Hp & ->). split; [|split].
      + apply spaced_clean. eapply types_tokenish; [exact OK|exact Hg].
      + cbn. apply (cnt_pos U tts o); [lia|exact Hg].
      + apply Hbig; assumption.
    - apply all_NoDup. lia.
    - exists m. rewrite map_length, seq_length in E. rewrite map_map in E. rewrite map_map. split; [exact E|]. split.
      + intros text det Hg. destruct (H1 text det Hg) as (np & Hnp & Ht & Hm). apply Hin in Hnp. destruct Hnp as (o & g & Ho & Hg' & Hp & ->). exists o, g. auto.
      + intros o g Ho Hg Hp. apply (H2 (entry o g, pr o g)). apply Hin. exists o, g. auto.
  Qed.
End Saved.
