(** Proofs about the pipeline with batches of predictions and with texts that cannot be cut into sentences. *)
From Coq Require Import Ascii String.
From Coq Require Import List NArith ZArith Arith Bool Lia.
From Verif Require Import PyBase Regex MUtils MTree MVector MParser MBatch MNgram MLangModel MNormal MNode MSem MTokenizer MPipeline MFull SUtils SNormal SLangModel SVector STree SParser SPipeline SBatch SFull LBase LUtils LText LUdb LTree LVector LParser LParserCall LLangModel LNormal LLogic LPipeline LBatch.
Import ListNotations.
Local Open Scope nat_scope.

(** ** what is kept *)
Section Kept.
  Context (sz : str -> res (list (list str))).
  Lemma readable_mapM l : forallb (readable sz) l = true -> exists ys, mapM sz l = Ok ys.
  Proof.
    induction l as [|x l IH]; cbn; intros H; [eauto|]. apply andb_true_iff in H. destruct H as [H1 H2]. unfold readable in H1. destruct (sz x) as [y|e]; [|discriminate].
    destruct (IH H2) as [ys E]. cbn [rbind]. rewrite E. cbn. eauto.
  Qed.
  Lemma unreadable_mapM l : forallb (readable sz) l = false -> exists e, mapM sz l = Err e.
  Proof.
    induction l as [|x l IH]; cbn; intros H; [discriminate|]. unfold readable in H at 1. destruct (sz x) as [y|e]; cbn [rbind]; [|eauto]. cbn in H. destruct (IH H) as [e E]. rewrite E. cbn. eauto.
  Qed.
  Lemma mapM_app_ok {A B} (f : A -> res B) a b ya yb : mapM f a = Ok ya -> mapM f b = Ok yb -> mapM f (a ++ b) = Ok (ya ++ yb).
  Proof.
    revert ya; induction a as [|x a IH]; intros ya Ha Hb; cbn [app mapM] in *; [injection Ha as <-; exact Hb|].
    apply rbind_Ok in Ha. destruct Ha as (y & E1 & Ha). apply rbind_Ok in Ha. destruct Ha as (ys & E2 & Ha). injection Ha as <-. rewrite E1. cbn [rbind]. rewrite (IH ys E2 Hb). reflexivity.
  Qed.
  Lemma kept_outputs shares : mapM sz (kept sz shares) = Ok (flat_map (thread_output sz) shares).
  Proof.
    unfold kept. induction shares as [|l shares IH]; [reflexivity|]. cbn [filter flat_map]. unfold thread_output at 1. destruct (forallb (readable sz) l) eqn:E.
    - destruct (readable_mapM l E) as [ys Ey]. rewrite Ey. cbn [concat]. apply mapM_app_ok; assumption.
    - destruct (unreadable_mapM l E) as [e Ee]. rewrite Ee. exact IH.
  Qed.
  Lemma kept_length shares : length (kept sz shares) <= length (concat shares).
  Proof. unfold kept. induction shares as [|l shares IH]; cbn; [lia|]. destruct (forallb (readable sz) l); cbn [concat]; rewrite !app_length; lia. Qed.
  Lemma kept_all shares : (forall text, In text (concat shares) -> readable sz text = true) -> kept sz shares = concat shares.
  Proof.
    unfold kept. induction shares as [|l shares IH]; intros H; [reflexivity|]. cbn [filter concat] in *.
    assert (E : forallb (readable sz) l = true) by (apply forallb_forall; intros x Hx; apply H, in_or_app; left; exact Hx). rewrite E. cbn [concat]. f_equal. apply IH. intros x Hx. apply H, in_or_app. right. exact Hx.
  Qed.
  (** the sentences that the threads return are those of the texts that are kept *)
  Lemma kept_returns texts nb : (1 <= nb)%Z -> (Z.of_nat (length texts) <= 2 ^ 53)%Z ->
    exists shares sents, divide_list texts nb = Ok shares /\ concat shares = texts /\ mapM sz (kept sz shares) = Ok sents /\
      run_multithreads sz texts nb = Ok sents /\ (forall out, run_multithreads_returns sz texts nb out <-> out = sents).
  Proof.
    intros Hn HL. destruct (divide_list_ok texts nb Hn HL) as (ls & E & C). destruct (run_multithreads_correct sz texts nb Hn HL) as (out & E1 & H1).
    exists ls, out. split; [exact E|]. split; [exact C|]. split; [|split; [exact E1|exact H1]]. unfold run_multithreads in E1. rewrite E in E1. cbn [rbind] in E1.
    injection E1 as <-. rewrite kept_outputs. reflexivity.
  Qed.
End Kept.

Lemma models_of_picks (V F : Type) (le : F -> F -> bool) (S : sentence_networks V F) : total_order le -> shapes_ok V F S -> picks le S (models_of V F le S).
Proof.
  intros T HS.
  assert (HP : forall row n, length row = Datatypes.S n -> most_probable le row (picked F le row)).
  { intros row n L. apply argmax_spec; [exact T|]. apply argmax_picked. intros ->. discriminate. }
  assert (HF2 : forall rows n, Forall (fun r : list F => length r = Datatypes.S n) rows -> Forall2 (most_probable le) rows (map (picked F le) rows)).
  { intros rows n H. induction H; cbn; constructor; eauto. }
  constructor; cbn; intros; [apply (HF2 _ 16), (sh_tags _ _ _ HS)|apply (HF2 _ 24), (sh_deps _ _ _ HS)|apply (HP _ 3), (sh_trans _ _ _ HS)].
Qed.
Section Full.
  Context (V F : Type) (v0 : V) (U : udb) (le : F -> F -> bool) (N : networks V F) (S : sentence_networks V F) (cs : charset) (ws : wordset V).
  Context (HS : shapes_ok V F S) (HR : rowwise V F (charset_len cs) N S) (HC : charset_ok cs) (HW : ws_ok V ws).
  Notation M := (models_of V F le S).
  Context (P L : Type) (leL : L -> L -> bool) (zero : P) (ninf : L) (m : lm P L) (lx : lexicon) (nouns : list str).
  Context (HT : total_order leL) (HA : antisym leL) (BO : best_ok P L leL zero ninf m) (NB : forall x, lm_contains P L m x = true -> nonblank U x).
  Context (sz : str -> res (list (list str))).
  Notation document_of := (document_of V v0 U M cs ws P L leL zero ninf m lx nouns sz).
  Notation sentence_of := (sentence_of V v0 U M cs ws P L leL zero ninf m lx nouns).
  Notation returns := (full_returns V F v0 U le N cs ws P L leL zero ninf m lx nouns sz).

  Lemma full_stages nb bsz texts b shares sents : (1 <= nb)%Z -> 1 <= bsz -> (Z.of_nat (length texts) <= 2 ^ 53)%Z ->
    concat shares = texts -> mapM sz (kept sz shares) = Ok sents -> run_multithreads sz texts nb = Ok sents -> (forall out, run_multithreads_returns sz texts nb out <-> out = sents) ->
    (Z.of_nat (length (concat (map split_tokens sents))) <= 2 ^ 53)%Z ->
    exists docs, (forall out, returns nb (Z.of_nat bsz) texts b out <-> out = docs) /\
      full_call V F v0 U le N cs ws P L leL zero ninf m lx nouns sz nb (Z.of_nat bsz) texts b = Ok docs /\ Forall2 (document_of b) (kept sz shares) docs.
  Proof.
    intros Hn Hb HL1 HCC HK RS RI HL2. assert (HM : models_ok V M) by (apply models_of_ok; exact HS).
    pose proof HK as HK0. apply mapM_Ok_Forall2 in HK0. pose proof (Forall2_len _ _ _ HK0) as Ls. pose proof (kept_length sz shares) as Lk. rewrite HCC in Lk.
    set (groups := map split_tokens sents) in *.
    assert (EG : mapM (fun token_lists => Ok (split_tokens token_lists)) sents = Ok groups) by (apply mapM_total; reflexivity).
    assert (HL3 : (Z.of_nat (length sents) <= 2 ^ 53)%Z) by lia.
    assert (Hlen : forall t, In t (concat groups) -> length t <= MAX_SENT_LENGTH).
    { intros t Ht. apply in_concat in Ht. destruct Ht as (g & Hg & Ht). apply in_map_iff in Hg. destruct Hg as (s & <- & _). apply split_tokens_short in Ht. exact Ht. }
    destruct (parser_stages V v0 U M cs ws HM HW bsz (concat groups) Hb Hlen) as (ms & bs & its & done & trees & E1 & E2 & E3 & E4 & E5 & L1 & L2 & HF).
    assert (GM : Forall (mats_good V cs) (concat bs)).
    { destruct (make_batches_spec ms bsz Hb) as (bs' & Eb & Ec & _). rewrite E2 in Eb. injection Eb as <-. rewrite Ec. exact (vectorized_all V v0 U cs ws HC HW _ _ E1). }
    assert (E3' : mapM (batch_items V F le N) bs = Ok its).
    { rewrite (batches_items_ok V F le N S cs HS HR); [exact E3| |exact GM]. destruct (make_batches_spec ms bsz Hb) as (bs' & Eb & Ec & Hbs). rewrite E2 in Eb. injection Eb as <-.
      intros x Hin. destruct Hbs as [Hbs _]. intros ->. specialize (Hbs [] Hin). cbn in Hbs. lia. }
    pose proof (batched_loop_ok V F le N S cs HS HR bsz Hb _ _ _ (make_items_good V F le S cs HS bs its GM E3) E4) as E4'.
    set (tags := map (fun i => p_tags (i_parse i)) done) in *. assert (Lt : length tags = length (concat groups)) by (unfold tags; rewrite map_length; exact L1).
    destruct (logic_all V v0 U M cs ws HM HW P L leL zero ninf m lx nouns HT HA BO NB b (concat groups) tags trees Lt L2 Hlen HF) as (results & ER & HD).
    assert (HL4 : (Z.of_nat (length done) <= 2 ^ 53)%Z) by (rewrite L1; exact HL2).
    assert (HL5 : (Z.of_nat (length (zip3 (concat groups) tags trees)) <= 2 ^ 53)%Z) by (rewrite zip3_len; assumption).
    assert (HP : exists docs, concat docs = map snd results /\ Forall2 (fun g d => Forall2 (sentence_of b) g d) groups docs).
    { clear - HD. revert HD. generalize (map snd results) as ds. induction groups as [|g gs IH]; intros ds HD; cbn [concat] in HD.
      - inversion HD; subst. exists []. split; [reflexivity|constructor].
      - apply Forall2_app_inv_l in HD. destruct HD as (d1 & d2 & H1 & H2 & ->). destruct (IH d2 H2) as (docs & E & H). exists (d1 :: docs). cbn [concat]. rewrite E. split; [reflexivity|]. constructor; assumption. }
    destruct HP as (docs & EC & HDs). exists docs.
    assert (RG : regroup (sent_ranges groups) (map snd results) = docs).
    { apply regroup_ok; [|symmetry; exact EC]. clear - HDs. induction HDs as [|g d gs ds H HH IH]; constructor; [eapply Forall2_len; eauto|exact IH]. }
    split; [|split].
    - intros out. split.
      + intros (sents' & groups' & tags' & trees' & nd & sl & R1 & R2 & (ms' & bs' & its' & done' & P1 & P2 & P3 & P4 & P5 & P6) & (results' & Q1 & Q2 & Q3) & ->).
        apply RI in R1. subst sents'. apply (returns_iff _ _ _ _ Hn HL3 EG) in R2. subst groups'.
        apply (returns_iff _ _ _ _ Hn HL2 E1) in P1. subst ms'. rewrite E2 in P2. injection P2 as <-. rewrite E3' in P3. injection P3 as <-.
        rewrite E4' in P4. injection P4 as <-. apply (returns_iff _ _ _ _ Hn HL4 E5) in P6. subst trees'. fold tags in P5. subst tags'.
        apply (returns_iff _ _ _ _ Hn HL5 ER) in Q1. subst results' sl. exact RG.
      + intros ->. exists sents, groups, tags, trees, (map fst results), (map snd results).
        split; [apply RI; reflexivity|]. split; [apply (returns_iff _ _ _ _ Hn HL3 EG); reflexivity|].
        split; [exists ms, bs, its, done; split; [apply (returns_iff _ _ _ _ Hn HL2 E1); reflexivity|]; do 4 (split; [assumption||reflexivity|]); apply (returns_iff _ _ _ _ Hn HL4 E5); reflexivity|].
        split; [exists results; split; [apply (returns_iff _ _ _ _ Hn HL5 ER); reflexivity|auto]|symmetry; exact RG].
    - unfold full_call. rewrite RS. cbn [rbind]. rewrite (run_multithreads_total _ _ _ _ Hn HL3 EG). cbn [rbind].
      unfold batched_call. rewrite (run_multithreads_total _ _ _ _ Hn HL2 E1). cbn [rbind]. rewrite E2. cbn [rbind]. rewrite E3'. cbn [rbind]. rewrite E4'. cbn [rbind].
      rewrite (run_multithreads_total _ _ _ _ Hn HL4 E5). cbn [rbind]. fold tags. unfold logic_process_all.
      match goal with |- context [run_multithreads ?f (zip3 _ _ _) nb] => change f with (one U P L leL zero ninf m lx nouns b) end.
      rewrite (run_multithreads_total _ _ _ _ Hn HL5 ER). cbn [rbind]. rewrite RG. reflexivity.
    - clear - HK0 HDs. subst groups. revert docs HDs. induction HK0 as [|t s ts ss E H IH]; intros docs HDs; cbn in HDs; inversion HDs; subst; constructor; [|auto]. exists s. auto.
  Qed.
End Full.
