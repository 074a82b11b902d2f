(** Proofs about the pipeline. *)
From Coq Require Import Ascii String.
From Coq Require Import List NArith ZArith Arith Bool Lia.
From Verif Require Import PyBase Regex MUtils MTree MVector MParser MNgram MLangModel MNormal MNode MSem MPipeline SUtils SNormal SLangModel SVector STree SParser SPipeline LBase LUtils LText LTree LVector LParser LParserCall LNode2 LLangModel LNormal LNormal2 LLogic.
Import ListNotations.
Local Open Scope nat_scope.

(** ** re-splitting *)
Lemma is_splitter_iff t : is_splitter t = true <-> splitter t.
Proof.
  unfold is_splitter. rewrite existsb_exists. split.
  - intros (x & Hx & E). apply str_eqb_eq in E. subst x. cbn in Hx. unfold splitter. cbn [map In].
    repeat destruct Hx as [<-|Hx]; try (left; reflexivity); try (right; tauto).
  - intros H. exists t. split; [|apply str_eqb_eq; reflexivity]. destruct H as [->|H]; [cbn; auto|]. cbn in H. cbn. tauto.
Qed.
Lemma runs_head {A} (key : A -> bool) (l : list A) :
  match groupby key l with [] => l = [] | (b, g) :: _ => exists x g' l', g = x :: g' /\ l = x :: l' /\ key x = b end.
Proof.
  destruct l as [|x l]; [reflexivity|]. cbn [groupby]. destruct (groupby key l) as [|[b g] r]; [eauto 6|].
  destruct (Bool.eqb (key x) b) eqn:E; [apply eqb_prop in E|]; eauto 6.
Qed.
Lemma groupby_runs {A} (key : A -> bool) (cut : A -> Prop) (HK : forall x, key x = true <-> cut x) (l : list A) :
  maximal_runs cut l (map snd (filter (fun '(b, _) => negb b) (groupby key l))).
Proof.
  assert (HN : forall x, key x = false -> ~ cut x) by (intros x E H; apply HK in H; congruence).
  induction l as [|x l IH]; [constructor|]. cbn [groupby]. pose proof (runs_head key l) as HH. destruct (groupby key l) as [|[b g] r] eqn:EG.
  - subst l. destruct (key x) eqn:E; cbn.
    + apply runs_cut; [apply HK; exact E|constructor].
    + change [x] with ([x] ++ []) at 1. apply runs_run; [discriminate|constructor; [auto|constructor]|auto|constructor].
  - destruct HH as (y & g' & l' & -> & -> & Ey). destruct (key x) eqn:E; destruct b; cbn [Bool.eqb filter negb map snd] in *.
    + apply runs_cut; [apply HK; exact E|exact IH].
    + apply runs_cut; [apply HK; exact E|exact IH].
    + change (x :: y :: l') with ([x] ++ y :: l'). apply runs_run; [discriminate|constructor; [auto|constructor]|right; exists y, l'; split; [reflexivity|apply HK; exact Ey]|exact IH].
    + inversion IH as [|? ? ? Hc|r' l2 rs Hr Hf Ho Hm E1 E2]; subst.
      * exfalso. apply (HN _ Ey). exact Hc.
      * change (x :: (y :: g') ++ l2) with ((x :: y :: g') ++ l2).
        apply runs_run; [discriminate|constructor; auto|exact Ho|exact Hm].
Qed.
Lemma split_tokens_ok token_lists : exists pieces, Forall2 resplit token_lists pieces /\ split_tokens token_lists = concat pieces.
Proof.
  unfold split_tokens. cbv zeta.
  set (piece := fun tokens : list str => if MAX_SENT_LENGTH <? length tokens then map snd (filter (fun '(b, _) => negb b) (groupby is_splitter tokens)) else [tokens]).
  assert (F : forall l acc, fold_left (fun new tokens => if MAX_SENT_LENGTH <? length tokens
      then new ++ map snd (filter (fun '(b, _) => negb b) (groupby is_splitter tokens)) else new ++ [tokens]) l acc = acc ++ flat_map piece l).
  { induction l as [|t l IH]; intros acc; cbn [fold_left flat_map]; [rewrite app_nil_r; reflexivity|]. rewrite IH, app_assoc. f_equal. unfold piece. destruct (MAX_SENT_LENGTH <? length t); reflexivity. }
  rewrite F. cbn [app]. clear F. exists (map (fun t => filter (fun tokens => length tokens <=? MAX_SENT_LENGTH) (piece t)) token_lists). split.
  - induction token_lists as [|t l IH]; cbn; constructor; [|exact IH]. unfold piece. unfold MAX_SENT_LENGTH. destruct (Nat.ltb_spec 50 (length t)) as [Hl|Hl].
    + apply resplit_long; [exact Hl|]. apply groupby_runs. exact is_splitter_iff.
    + cbn [filter]. replace (length t <=? 50) with true by (symmetry; apply Nat.leb_le; exact Hl). apply resplit_short. exact Hl.
  - induction token_lists as [|t l IH]; cbn [flat_map map concat]; [reflexivity|]. rewrite filter_app, IH. reflexivity.
Qed.
Lemma split_tokens_short token_lists tokens : In tokens (split_tokens token_lists) -> length tokens <= 50.
Proof. unfold split_tokens. cbv zeta. intros H. apply filter_In in H. apply Nat.leb_le. apply H. Qed.
Lemma maximal_runs_concat {A} (cut : A -> Prop) (dec : A -> bool) (HK : forall x, dec x = true <-> cut x) l rs :
  maximal_runs cut l rs -> concat rs = filter (fun x => negb (dec x)) l.
Proof.
  induction 1 as [|x l rs Hc H IH|r l rs Hr Hf Ho H IH]; cbn; [reflexivity| |].
  - apply HK in Hc. rewrite Hc. exact IH.
  - rewrite filter_app, IH. f_equal. clear - Hf HK. induction Hf as [|x r Hx Hf IH]; cbn; [reflexivity|].
    destruct (dec x) eqn:E; [apply HK in E; contradiction|]. cbn. f_equal. exact IH.
Qed.
Lemma runs_span {A} (cut : A -> Prop) (r l r' l' : list A) : r ++ l = r' ++ l' -> Forall (fun x => ~ cut x) r -> Forall (fun x => ~ cut x) r' ->
  (l = [] \/ exists x t, l = x :: t /\ cut x) -> (l' = [] \/ exists x t, l' = x :: t /\ cut x) -> r = r' /\ l = l'.
Proof.
  revert r'; induction r as [|x r IH]; intros [|y r'] E H H' O O'; cbn [app] in E.
  - auto.
  - subst l. destruct O as [O|(z & t & O & Hc)]; [discriminate|]. injection O as <- _. inversion H'; subst. contradiction.
  - subst l'. destruct O' as [O'|(z & t & O' & Hc)]; [discriminate|]. injection O' as <- _. inversion H; subst. contradiction.
  - injection E as <- E. inversion H; inversion H'; subst. destruct (IH r' E) as [-> ->]; auto.
Qed.
Lemma maximal_runs_fun {A} (cut : A -> Prop) l rs rs' : maximal_runs cut l rs -> maximal_runs cut l rs' -> rs = rs'.
Proof.
  intros H; revert rs'. induction H as [|x l rs Hc H IH|r l rs Hr Hf Ho H IH]; intros rs' H'.
  - remember (@nil A) as l0 eqn:E0. destruct H' as [|x l rs Hc H'|r l rs Hr Hf Ho H']; [reflexivity|discriminate|]. destruct r; [contradiction|discriminate].
  - inversion H' as [|? ? ? ? H2|r l' rs2 Hr Hf Ho H2 E]; subst; [auto|]. destruct r; [contradiction|]. cbn in E. injection E as <- _. inversion Hf; subst. contradiction.
  - inversion H' as [E|x l' rs2 Hc H2 E|r' l' rs2 Hr' Hf' Ho' H2 E]; subst.
    + destruct r; [contradiction|discriminate].
    + destruct r; [contradiction|]. cbn in E. injection E as <- _. inversion Hf; subst. contradiction.
    + destruct (runs_span cut r' l' r l E Hf' Hf Ho' Ho) as [-> ->]. f_equal. auto.
Qed.

(** ** parallel maps *)
Lemma returns_iff {A B} (process : A -> res B) items n ys : (1 <= n)%Z -> (Z.of_nat (length items) <= 2 ^ 53)%Z -> mapM process items = Ok ys ->
  forall out, run_multithreads_returns process items n out <-> out = ys.
Proof.
  intros H1 H2 H3. destruct (run_multithreads_correct process items n H1 H2) as (o & E & H).
  rewrite (run_multithreads_total process items n ys H1 H2 H3) in E. injection E as <-. exact H.
Qed.

(** ** regrouping *)
Lemma ranges_from groups : forall acc total, fold_left (fun '(ranges, total) (token_lists : list (list str)) =>
    let new_total := total + length token_lists in (ranges ++ [(total, new_total)], new_total)) groups (acc, total) =
  (acc ++ (fix go k gs := match gs with [] => [] | g :: gs' => (k, k + length g) :: go (k + length g) gs' end) total groups, total + length (concat groups)).
Proof.
  induction groups as [|g gs IH]; intros acc total; cbn [fold_left concat length]; [rewrite app_nil_r, Nat.add_0_r; reflexivity|].
  rewrite IH, <- app_assoc, app_length, Nat.add_assoc. reflexivity.
Qed.
Lemma regroup_ok (lists : list (list stuple)) (groups : list (list (list str))) (docs : list document) :
  Forall2 (fun (g : list (list str)) (d : document) => length g = length d) groups docs -> lists = concat docs -> regroup (sent_ranges groups) lists = docs.
Proof.
  intros H ->. unfold sent_ranges. rewrite ranges_from. cbn [fst app]. unfold regroup, range.
  assert (G : forall pre k, k = length pre -> map (fun '(start, stop) => slice (Some (Z.of_nat start)) (Some (Z.of_nat stop)) (pre ++ concat docs))
     ((fix go k gs := match gs with [] => [] | g :: gs' => (k, k + length g) :: go (k + length g) gs' end) k groups) = docs).
  { induction H as [|g d gs ds Hl H IH]; intros pre k ->; [reflexivity|]. cbn [map concat]. f_equal.
    - rewrite slice_nat, skipn_app, skipn_all, Nat.sub_diag. cbn [app skipn]. rewrite Hl.
      replace (length pre + length d - length pre) with (length d) by lia. rewrite firstn_app, firstn_all, Nat.sub_diag. cbn. apply app_nil_r.
    - specialize (IH (pre ++ d) (length pre + length g)). rewrite <- app_assoc in IH. apply IH. rewrite app_length. lia. }
  apply (G [] 0 eq_refl).
Qed.

Section Pipe.
  Context (V : Type) (v0 : V) (U : udb) (M : models V) (cs : charset) (ws : wordset V).
  Context (HM : models_ok V M) (HW : ws_ok V ws).
  Context (P L : Type) (leL : L -> L -> bool) (zero : P) (ninf : L) (m : lm P L) (lx : lexicon) (nouns : list str).
  Context (HT : total_order leL) (HA : antisym leL) (BO : best_ok P L leL zero ninf m) (NB : forall x, lm_contains P L m x = true -> nonblank U x).
  Notation logic := (logic_process U P L leL zero ninf (lm_tokenize U) m lx nouns).

  Lemma logic_of_parsed tokens tags tree b : length tokens <= MAX_SENT_LENGTH -> parsed V v0 U M cs ws tokens tags tree -> exists r, logic tokens tags tree b = Ok r.
  Proof.
    intros Hl (d & p0 & ts & p & Ev & Ei & Hr & _ & Et & Eb). apply prun_run in Hr. rewrite vectorize_ok in Ev by assumption. injection Ev as Ev.
    assert (Hm : m_length d = length tokens + 2) by (rewrite <- Ev; reflexivity). rewrite Hm in Ei.
    assert (Hs : start (length tokens) p0) by (split; [exact Hl|]; do 2 eexists; split; [apply (ok_tags V M HM)|]; split; [apply (ok_deps V M HM)|exact Ei]).
    destruct (parser_parse_ok (length tokens) p0 ts p Hs Hr) as (Lt & Hp). rewrite Et in Lt.
    apply (logic_total U P L leL zero ninf m BO NB lx HT HA (lm_tokenize U) [[]] eq_refl nouns). 
    destruct Hp as [[E _]|(root & t & _ & E & Hreg & Hok & _)].
    - left. congruence.
    - right. exists root, (p_arcs p), t. split; [congruence|auto].
  Qed.
  Context (sentencize : str -> res (list (list str))).
  Notation sentence_of := (sentence_of V v0 U M cs ws P L leL zero ninf m lx nouns).
  Notation document_of := (document_of V v0 U M cs ws P L leL zero ninf m lx nouns sentencize).
  Notation returns := (pipeline_returns V v0 U M cs ws P L leL zero ninf m lx nouns sentencize).

  Definition one (b : bool) : (list str * list tag * option tree) -> res (dict nat nat * list stuple) :=
    fun '(tokens, tags, tree) => let! (_, _, d, s) := logic tokens tags tree b in Ok (d, s).
  Lemma zip3_len {A B C} (a : list A) (b : list B) (c : list C) : length b = length a -> length c = length a -> length (zip3 a b c) = length a.
  Proof. revert b c; induction a as [|x a IH]; intros [|y b] [|z c] H1 H2; try discriminate; cbn; [reflexivity|]. f_equal. apply IH; cbn in *; lia. Qed.
  Lemma logic_all b token_lists tags trees : length tags = length token_lists -> length trees = length token_lists ->
    (forall t, In t token_lists -> length t <= MAX_SENT_LENGTH) ->
    Forall2 (fun toks out => parsed V v0 U M cs ws toks (fst out) (snd out)) token_lists (combine tags trees) ->
    exists results, mapM (one b) (zip3 token_lists tags trees) = Ok results /\ Forall2 (sentence_of b) token_lists (map snd results).
  Proof.
    revert tags trees; induction token_lists as [|toks l IH]; intros [|tg tags] [|tr trees] L1 L2 Hs HF; try discriminate; [exists []; split; [reflexivity|constructor]|].
    cbn [combine] in HF. inversion HF as [|? ? ? ? HP HF']; subst. cbn [fst snd] in HP.
    destruct (logic_of_parsed toks tg tr b (Hs _ (or_introl eq_refl)) HP) as [[[[h R] d] s] E].
    destruct (IH tags trees) as (rs & Er & Hf); [cbn in *; lia|cbn in *; lia|intros t Ht; apply Hs; right; exact Ht|exact HF'|].
    exists ((d, s) :: rs). cbn [zip3 mapM]. unfold one at 1. rewrite E. cbn [rbind]. rewrite Er. cbn [rbind]. split; [reflexivity|].
    cbn [map snd]. constructor; [|exact Hf]. exists tg, tr, h, R, d. auto.
  Qed.
  (** all stages *)
  Lemma pipeline_stages nb bsz texts b sents : (1 <= nb)%Z -> 1 <= bsz -> Forall2 (fun t s => sentencize t = Ok s) texts sents ->
    (Z.of_nat (length texts) <= 2 ^ 53)%Z -> (Z.of_nat (length (concat (map split_tokens sents))) <= 2 ^ 53)%Z ->
    exists docs, (forall out, returns nb (Z.of_nat bsz) texts b out <-> out = docs) /\
      pipeline_call V v0 U M cs ws P L leL zero ninf m lx nouns sentencize nb (Z.of_nat bsz) texts b = Ok docs /\ Forall2 (document_of b) texts docs.
  Proof.
    intros Hn Hb HS HL1 HL2. pose proof (Forall2_len _ _ _ HS) as Ls. pose proof HS as HS0. apply mapM_Ok_Forall2 in HS.
    set (groups := map split_tokens sents) in *.
    assert (EG : mapM (fun token_lists => Ok (split_tokens token_lists)) sents = Ok groups) by (apply mapM_total; reflexivity).
    assert (HL3 : (Z.of_nat (length sents) <= 2 ^ 53)%Z) by (rewrite <- Ls; exact HL1).
    assert (Hlen : forall t, In t (concat groups) -> length t <= MAX_SENT_LENGTH).
    { intros t Ht. apply in_concat in Ht. destruct Ht as (g & Hg & Ht). apply in_map_iff in Hg. destruct Hg as (s & <- & _). apply split_tokens_short in Ht. exact Ht. }
    destruct (parser_stages V v0 U M cs ws HM HW bsz (concat groups) Hb Hlen) as (ms & bs & its & done & trees & E1 & E2 & E3 & E4 & E5 & L1 & L2 & HF).
    set (tags := map (fun i => p_tags (i_parse i)) done) in *. assert (Lt : length tags = length (concat groups)) by (unfold tags; rewrite map_length; exact L1).
    destruct (logic_all b (concat groups) tags trees Lt L2 Hlen HF) as (results & ER & HD).
    assert (HL4 : (Z.of_nat (length done) <= 2 ^ 53)%Z) by (rewrite L1; exact HL2).
    assert (HL5 : (Z.of_nat (length (zip3 (concat groups) tags trees)) <= 2 ^ 53)%Z) by (rewrite zip3_len; assumption).
    assert (HP : exists docs, concat docs = map snd results /\ Forall2 (fun g d => Forall2 (sentence_of b) g d) groups docs).
    { clear - HD. revert HD. generalize (map snd results) as ds. induction groups as [|g gs IH]; intros ds HD; cbn [concat] in HD.
      - inversion HD; subst. exists []. split; [reflexivity|constructor].
      - apply Forall2_app_inv_l in HD. destruct HD as (d1 & d2 & H1 & H2 & ->). destruct (IH d2 H2) as (docs & E & H). exists (d1 :: docs). cbn [concat]. rewrite E. split; [reflexivity|]. constructor; assumption. }
    destruct HP as (docs & EC & HDs). exists docs.
    assert (RG : regroup (sent_ranges groups) (map snd results) = docs).
    { apply regroup_ok; [|symmetry; exact EC]. clear - HDs. induction HDs as [|g d gs ds H HH IH]; constructor; [eapply Forall2_len; eauto|exact IH]. }
    split; [|split].
    - intros out. split.
      + intros (sents' & groups' & tags' & trees' & nd & sl & R1 & R2 & (ms' & bs' & its' & done' & P1 & P2 & P3 & P4 & P5 & P6) & (results' & Q1 & Q2 & Q3) & ->).
        apply (returns_iff _ _ _ _ Hn HL1 HS) in R1. subst sents'. apply (returns_iff _ _ _ _ Hn HL3 EG) in R2. subst groups'.
        apply (returns_iff _ _ _ _ Hn HL2 E1) in P1. subst ms'. rewrite E2 in P2. injection P2 as <-. rewrite E3 in P3. injection P3 as <-.
        rewrite E4 in P4. injection P4 as <-. apply (returns_iff _ _ _ _ Hn HL4 E5) in P6. subst trees'. fold tags in P5. subst tags'.
        apply (returns_iff _ _ _ _ Hn HL5 ER) in Q1. subst results' sl. exact RG.
      + intros ->. exists sents, groups, tags, trees, (map fst results), (map snd results).
        split; [apply (returns_iff _ _ _ _ Hn HL1 HS); reflexivity|]. split; [apply (returns_iff _ _ _ _ Hn HL3 EG); reflexivity|].
        split; [exists ms, bs, its, done; split; [apply (returns_iff _ _ _ _ Hn HL2 E1); reflexivity|]; do 4 (split; [assumption||reflexivity|]); apply (returns_iff _ _ _ _ Hn HL4 E5); reflexivity|].
        split; [exists results; split; [apply (returns_iff _ _ _ _ Hn HL5 ER); reflexivity|auto]|symmetry; exact RG].
    - unfold pipeline_call. rewrite (run_multithreads_total _ _ _ _ Hn HL1 HS). cbn [rbind]. rewrite (run_multithreads_total _ _ _ _ Hn HL3 EG). cbn [rbind].
      unfold parser_call. rewrite (run_multithreads_total _ _ _ _ Hn HL2 E1). cbn [rbind]. rewrite E2. cbn [rbind]. rewrite E3. cbn [rbind]. rewrite E4. cbn [rbind].
      rewrite (run_multithreads_total _ _ _ _ Hn HL4 E5). cbn [rbind]. fold tags. unfold logic_process_all.
      match goal with |- context [run_multithreads ?f (zip3 _ _ _) nb] => change f with (one b) end.
      rewrite (run_multithreads_total _ _ _ _ Hn HL5 ER). cbn [rbind]. rewrite RG. reflexivity.
    - clear - HS0 HDs. subst groups. revert docs HDs. induction HS0 as [|t s ts ss E H IH]; intros docs HDs; cbn in HDs; inversion HDs; subst; constructor; [|auto]. exists s. auto.
  Qed.
  Lemma document_fun b text d d' : document_of b text d -> document_of b text d' -> d = d'.
  Proof.
    intros (s & E & H) (s' & E' & H'). rewrite E in E'. injection E' as <-. clear E. revert d' H'.
    induction H as [|g x gs ds (tg & tr & h & R & dd & Hp & El) H IH]; intros d' H'; inversion H' as [|? y ? ? (tg' & tr' & h' & R' & dd' & Hp' & El') H'']; subst; [reflexivity|].
    destruct (parsed_fun _ _ _ _ _ _ _ _ _ _ _ Hp Hp') as [<- <-]. rewrite El in El'. injection El' as _ _ _ <-. f_equal. auto.
  Qed.
End Pipe.
