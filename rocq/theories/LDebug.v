(** Proofs about the entry points that return every step. *)
From Coq Require Import Ascii String.
From Coq Require Import List NArith ZArith Arith Bool Lia.
From Verif Require Import PyBase Regex MUtils MTree MVector MParser MNgram MLangModel MNormal MNode MSem MPipeline MDebug.
From Verif Require Import SUtils SNormal SLangModel SVector STree SParser SPipeline LBase LUtils LText LTree LVector LParser LParserCall LNode2 LLangModel LNormal LNormal2 LLogic LPipeline.
Import ListNotations.
Local Open Scope nat_scope.

Section Debug.
  Context (V : Type) (v0 : V) (U : udb) (M : models V) (cs : charset) (ws : wordset V).
  Context (HM : models_ok V M) (HW : ws_ok V ws).
  Context (P L : Type) (leL : L -> L -> bool) (zero : P) (ninf : L) (m : lm P L) (lx : lexicon) (nouns : list str).
  Context (HT : total_order leL) (HA : antisym leL) (BO : best_ok P L leL zero ninf m) (NB : forall x, lm_contains P L m x = true -> nonblank U x).
  Notation logic := (logic_process U P L leL zero ninf (lm_tokenize U) m lx nouns).
  Notation pp := (past_participle P L leL zero ninf (lm_tokenize U) m (lx_lemma_pp lx)).

  (** the second extraction gives the tuples of the first *)
  Lemma extract_again tokens tags tree b H R d s : logic tokens tags tree b = Ok (H, R, d, s) ->
    (exists s', extract H R pp (dvalues d) = Ok s') /\ extract H R pp (dvalues d) = Ok s.
  Proof.
    unfold logic_process. destruct (nodify U tokens tags tree) as [[[h0 d0] nt]|e]; cbn [rbind]; [|discriminate].
    destruct (normalize_nodes _ _ _ _ _ _ _ _ _ _) as [h1|e]; cbn [rbind]; [|discriminate]. set (h2 := fold_left _ (dvalues d0) h1).
    destruct (if b then _ else _) as [h3|e]; cbn [rbind]; [|discriminate]. destruct (canonicalize_nodes _ _ _ _ _ _ _ _ _ _) as [h4|e]; cbn [rbind]; [|discriminate].
    destruct (extract _ _ _ _) as [s'|e] eqn:E; cbn [rbind]; [|discriminate]. intros K. injection K as <- <- <- <-. rewrite E. eauto.
  Qed.

  Definition step_of (b : bool) (toks : list str) (tg : list tag) (tr : option tree) (r : heap * relheap * dict nat nat * list stuple) : Prop :=
    parsed V v0 U M cs ws toks tg tr /\ logic toks tg tr b = Ok r.
  Lemma process_ok nb bsz token_lists b : (1 <= nb)%Z -> 1 <= bsz -> (Z.of_nat (length token_lists) <= 2 ^ 53)%Z -> (forall t, In t token_lists -> length t <= MAX_SENT_LENGTH) ->
    exists tags trees results, process_tokens V v0 U M cs ws P L leL zero ninf m lx nouns nb (Z.of_nat bsz) token_lists b =
        Ok (tags, trees, map (fun '(h, R, d, _) => (h, R, d)) results, map (fun '(_, _, _, s) => s) results) /\
      length tags = length token_lists /\ length trees = length token_lists /\ length results = length token_lists /\
      forall i toks, nth_error token_lists i = Some toks -> exists tg tr r, nth_error tags i = Some tg /\ nth_error trees i = Some tr /\ nth_error results i = Some r /\ step_of b toks tg tr r.
  Proof.
    intros Hn Hb HL Hlen. destruct (parser_call_ok V v0 U M cs ws HM HW nb bsz token_lists Hn Hb HL Hlen) as (tags & trees & E & L1 & L2 & HF).
    assert (K : exists results, mapM (fun '(tokens, tags, tree) => logic tokens tags tree b) (zip3 token_lists tags trees) = Ok results /\ length results = length token_lists /\
      forall i toks, nth_error token_lists i = Some toks -> exists tg tr r, nth_error tags i = Some tg /\ nth_error trees i = Some tr /\ nth_error results i = Some r /\ step_of b toks tg tr r).
    { clear E HL. revert tags trees L1 L2 HF. induction token_lists as [|toks l IH]; intros [|tg tags] [|tr trees] L1 L2 HF; try discriminate.
      - exists []. split; [reflexivity|]. split; [reflexivity|]. intros [|i] ? K; discriminate.
      - cbn [combine] in HF. inversion HF as [|? ? ? ? HP HF']; subst. cbn [fst snd] in HP.
        destruct (logic_of_parsed V v0 U M cs ws HM HW P L leL zero ninf m lx nouns HT HA BO NB toks tg tr b (Hlen _ (or_introl eq_refl)) HP) as [r Er].
        destruct (IH (fun t Ht => Hlen t (or_intror Ht)) tags trees ltac:(cbn in *; lia) ltac:(cbn in *; lia) HF') as (rs & Ers & Lr & Hr).
        exists (r :: rs). cbn [zip3 mapM]. rewrite Er. cbn [rbind]. rewrite Ers. cbn [rbind]. split; [reflexivity|]. split; [cbn; lia|].
        intros [|i] t Ht; [|apply Hr; exact Ht]. cbn in Ht. injection Ht as <-. exists tg, tr, r. repeat split; assumption. }
    destruct K as (results & Er & Lr & Hr). exists tags, trees, results. split; [|auto].
    unfold process_tokens. rewrite E. cbn [rbind]. rewrite (run_multithreads_total _ _ _ results Hn); [reflexivity| |exact Er].
    rewrite zip3_len; [exact HL|exact L1|exact L2].
  Qed.
  Lemma index_0 {A} (x : A) l : index (x :: l) 0 = Ok x.
  Proof. unfold index. cbn [length]. destruct (Z.leb_spec (Z.of_nat (S (length l))) 0); [lia|]. reflexivity. Qed.
  Context (sentencize : str -> res (list (list str))).
  Notation test_parse := (test_parse V v0 U M cs ws P L leL zero ninf m lx nouns sentencize).
  Notation test_process := (test_process V v0 U M cs ws P L leL zero ninf m lx nouns sentencize).
  Notation process := (process_tokens V v0 U M cs ws P L leL zero ninf m lx nouns).

  Lemma first_results nb bsz toks rest : (1 <= nb)%Z -> 1 <= bsz -> (Z.of_nat (length (toks :: rest)) <= 2 ^ 53)%Z -> (forall t, In t (toks :: rest) -> length t <= MAX_SENT_LENGTH) ->
    exists tg tags tr trees H R d s results, step_of true toks tg tr (H, R, d, s) /\
      process nb (Z.of_nat bsz) (toks :: rest) true = Ok (tg :: tags, tr :: trees, (H, R, d) :: map (fun '(h, R, d, _) => (h, R, d)) results, s :: map (fun '(_, _, _, s) => s) results) /\
      (exists ss, mapM (fun '(h, R, d) => extract h R pp (dvalues d)) ((H, R, d) :: map (fun '(h, R, d, _) => (h, R, d)) results) = Ok (s :: ss)).
  Proof.
    intros Hn Hb HL Hlen. destruct (process_ok nb bsz (toks :: rest) true Hn Hb HL Hlen) as (tags & trees & results & E & L1 & L2 & L3 & Hr).
    destruct tags as [|tg tags], trees as [|tr trees], results as [|[[[H R] d] s] results]; try discriminate.
    destruct (Hr 0 toks eq_refl) as (tg' & tr' & r' & E1 & E2 & E3 & Hs). injection E1 as <-. injection E2 as <-. injection E3 as <-.
    exists tg, tags, tr, trees, H, R, d, s, results. split; [exact Hs|]. split; [exact E|].
    assert (A : exists ss, mapM (fun '(h, R, d) => extract h R pp (dvalues d)) (map (fun '(h, R, d, _) => (h, R, d)) results) = Ok ss).
    { destruct (mapM_ok_Forall (fun '(h, R, d) => extract h R pp (dvalues d)) (map (fun '(h, R, d, _) => (h, R, d)) results)) as [ss Ess]; [|eauto].
      apply Forall_forall. intros x Hx. apply in_map_iff in Hx. destruct Hx as ([[[h' R'] d'] s'] & <- & Hx). apply In_nth_error in Hx. destruct Hx as [i Hi].
      assert (exists t, nth_error rest i = Some t) as [t Ht].
      { destruct (nth_error rest i) eqn:Et; [eauto|]. apply nth_error_None in Et. assert (i < length results) by (apply nth_error_Some; congruence). cbn in L3. lia. }
      destruct (Hr (S i) t Ht) as (ta & tb & r & _ & _ & E3 & (_ & El)). cbn in E3. rewrite Hi in E3. injection E3 as <-. apply (extract_again _ _ _ _ _ _ _ _ El). }
    destruct A as (ss & Ess). exists ss. cbn [mapM]. destruct Hs as [_ El]. destruct (extract_again _ _ _ _ _ _ _ _ El) as [_ ->]. cbn [rbind]. rewrite Ess. reflexivity.
  Qed.
  Lemma test_process_ok nb bsz text toks rest : (1 <= nb)%Z -> 1 <= bsz -> sentencize text = Ok (toks :: rest) -> (Z.of_nat (length (toks :: rest)) <= 2 ^ 53)%Z ->
    (forall t, In t (toks :: rest) -> length t <= MAX_SENT_LENGTH) ->
    exists tg tr H R d s, step_of true toks tg tr (H, R, d, s) /\ test_process nb (Z.of_nat bsz) text = Ok (toks, tg, tr, (H, R, d), s) /\
      test_parse nb (Z.of_nat bsz) (InText text) = Ok (toks, tg, tr, (H, R, d)).
  Proof.
    intros Hn Hb Es HL Hlen. destruct (first_results nb bsz toks rest Hn Hb HL Hlen) as (tg & tags & tr & trees & H & R & d & s & results & Hs & E & ss & Ess).
    exists tg, tr, H, R, d, s. split; [exact Hs|]. unfold MDebug.test_process, MDebug.test_parse. rewrite Es. cbn [rbind]. rewrite E. cbn [rbind]. rewrite Ess. cbn [rbind]. rewrite !index_0. cbn [rbind]. auto.
  Qed.
  Lemma test_tokens_ok nb bsz toks : (1 <= nb)%Z -> 1 <= bsz -> length toks <= MAX_SENT_LENGTH ->
    exists tg tr H R d s, step_of true toks tg tr (H, R, d, s) /\ test_parse nb (Z.of_nat bsz) (InTokens toks) = Ok (toks, tg, tr, (H, R, d)).
  Proof.
    intros Hn Hb Hl. destruct (first_results nb bsz toks [] Hn Hb) as (tg & tags & tr & trees & H & R & d & s & results & Hs & E & ss & Ess); [cbn; lia|intros t [<-|[]]; exact Hl|].
    exists tg, tr, H, R, d, s. split; [exact Hs|]. unfold MDebug.test_parse. cbn [rbind]. rewrite E. cbn [rbind]. rewrite !index_0. reflexivity.
  Qed.
End Debug.
