(** Proofs about Parser.__call__ (syntax/parser.py:108-146): batches, threads and the transition loop. *)
From Coq Require Import List NArith ZArith Arith Bool Lia Sorted.
From Verif Require Import PyBase Regex MUtils MTree MVector MParser SUtils STree SParser SVector LBase LUtils LText LTree LVector LParser.
Import ListNotations.
Local Open Scope nat_scope.

Section Call.
  Context (V : Type) (v0 : V) (U : udb) (M : models V) (cs : charset) (ws : wordset V).
  Notation make_item := (make_item V M).
  Notation item_step := (item_step V M).
  Notation step_at := (step_at V M).

  Hypothesis HM : models_ok V M.

  Definition item_ok (i : item V) : Prop := length (p_deps (i_parse i)) <= MAX_SENT_LENGTH /\ inv (in_tree (p_deps (i_parse i))) (i_parse i).
  Lemma item_step_ok i : item_ok i -> p_complete (i_parse i) = false ->
    exists i' t, item_step i = Ok i' /\ item_ok i' /\ predicts V M (i_tag_codes i) (i_dep_codes i) (i_mats i) (i_parse i) t /\
      register_transition (i_parse i) t = Ok (i_parse i') /\
      msr (i_parse i') < msr (i_parse i) /\ i_mats i' = i_mats i /\ i_tag_codes i' = i_tag_codes i /\ i_dep_codes i' = i_dep_codes i.
  Proof.
    intros [Hl Hi] Hc. unfold MParser.item_step.
    pose proof Hi as (HC & Hne & Hw). pose proof Hc as Hc'. unfold p_complete in Hc'. unfold stack_top, buffer_first.
    destruct (p_buffer (i_parse i)) as [|b B] eqn:EB; [discriminate|].
    destruct (p_stack (i_parse i)) as [|s S] eqn:ES; [exfalso; apply Hne; [discriminate|reflexivity]|]. cbn [rbind].
    assert (Hs : s < length (p_deps (i_parse i))) by (apply Hw, (c_SW _ _ _ _ HC); left; reflexivity).
    assert (Hb : b < length (p_deps (i_parse i))) by (apply Hw, (c_BW _ _ _ _ HC); left; reflexivity).
    assert (EM : exists ms, make_masks (s + 1) (b + 1) = Ok ms).
    { unfold make_masks, make_mask, PADDED_SENT_LENGTH. unfold MAX_SENT_LENGTH in *.
      destruct (Nat.ltb_spec (s + 1) (50 + 2)); [|lia]. destruct (Nat.ltb_spec (b + 1) (50 + 2)); [|lia]. cbn [rbind]. eauto. }
    destruct EM as [ms EM]. rewrite EM. cbn [rbind].
    set (code := trans_model M _ _ _ _ _ _). pose proof (ok_trans V M HM (i_tag_codes i) (i_dep_codes i) (m_chars (i_mats i)) (m_words (i_mats i)) (fst ms) (snd ms)) as Hcode.
    fold code in Hcode.
    assert (ET : exists t, code = trans_code t /\ register_code (i_parse i) code = register_transition (i_parse i) t).
    { destruct code as [|[|[|[|]]]]; cbn; [exists LEFT|exists RIGHT|exists REDUCE|exists SHIFT|lia]; split; reflexivity. }
    destruct ET as [t [Ecode ->]]. destruct (LParser.step_inv _ _ t Hi Hc) as (p' & E & Hi' & Hm & _ & Hd & _). rewrite E. cbn [rbind].
    eexists; exists t. split; [reflexivity|]. cbn [i_parse i_mats i_tag_codes i_dep_codes]. split; [split; cbn [i_parse]; rewrite Hd; assumption|].
    split; [|auto 6]. exists s, b, ms. unfold stack_top, buffer_first. rewrite ES, EB. auto.
  Qed.

  Definition item_run (i i' : item V) : Prop :=
    i_mats i' = i_mats i /\ i_tag_codes i' = i_tag_codes i /\ i_dep_codes i' = i_dep_codes i /\
    exists ts, predicted_run V M (i_tag_codes i) (i_dep_codes i) (i_mats i) (i_parse i) ts (i_parse i').
  Lemma prun_run t d m p ts p' : predicted_run V M t d m p ts p' -> run p ts p'.
  Proof. induction 1; econstructor; eauto. Qed.
  Lemma prun_app t d m p ts p' ts' p'' : predicted_run V M t d m p ts p' -> predicted_run V M t d m p' ts' p'' -> predicted_run V M t d m p (ts ++ ts') p''.
  Proof. induction 1; cbn; [auto|]. intros. econstructor; eauto. Qed.
  Lemma item_run_trans a b c : item_run a b -> item_run b c -> item_run a c.
  Proof.
    intros (A1 & A2 & A3 & ts & A4) (B1 & B2 & B3 & ts' & B4). repeat split; try congruence. exists (ts ++ ts').
    rewrite A1, A2, A3 in B4. eapply prun_app; eauto.
  Qed.
  Lemma item_run_refl a : item_run a a.
  Proof. repeat split. exists []. constructor. Qed.

  (** the items reached from [items], position by position *)
  Definition reach (items items' : list (item V)) : Prop := Forall2 (fun i i' => item_ok i /\ item_ok i' /\ item_run i i') items items'.

  Lemma Forall2_nth {A B} (R : A -> B -> Prop) l l' : length l = length l' ->
    (forall k a b, nth_error l k = Some a -> nth_error l' k = Some b -> R a b) -> Forall2 R l l'.
  Proof.
    revert l'; induction l as [|x l IH]; intros [|y l'] Hl H; try discriminate; constructor.
    - apply (H 0); reflexivity.
    - apply IH; [cbn in Hl; lia|]. intros k a b Ha Hb. apply (H (S k)); assumption.
  Qed.
  Lemma steps_ok poss : NoDup poss -> forall items, Forall item_ok items ->
    (forall k, In k poss -> exists i, nth_error items k = Some i /\ p_complete (i_parse i) = false) ->
    exists items', foldM step_at items poss = Ok items' /\ length items' = length items /\
      forall k i, nth_error items k = Some i -> exists i', nth_error items' k = Some i' /\
        (~ In k poss -> i' = i) /\ (In k poss -> item_ok i' /\ item_run i i' /\ msr (i_parse i') < msr (i_parse i)).
  Proof.
    induction 1 as [|pos poss Hn Hnd IH]; intros items Hok Hp.
    - exists items. split; [reflexivity|]. split; [reflexivity|]. intros k i Hk. exists i. split; [exact Hk|]. split; [auto|intros []].
    - destruct (Hp pos (or_introl eq_refl)) as (i & Ei & Hc).
      assert (Hoi : item_ok i) by (rewrite Forall_forall in Hok; apply Hok; eapply nth_error_In; eauto).
      destruct (item_step_ok i Hoi Hc) as (i' & t & Es & Hoi' & Ept & Et & Hm & Em1 & Em2 & Em3).
      cbn [foldM]. unfold MParser.step_at at 1. rewrite Ei. cbn [of_option rbind]. rewrite Es. cbn [rbind].
      change (firstn pos items ++ i' :: skipn (S pos) items) with (set_nth pos i' items).
      assert (Hpos : pos < length items) by (apply nth_error_Some; congruence).
      assert (Hrun : item_run i i') by (repeat split; auto; exists [t]; econstructor; eauto; constructor).
      destruct (IH (set_nth pos i' items)) as (items' & E & Hl & H).
      { apply Forall_forall. intros x Hx. apply In_nth_error in Hx. destruct Hx as [k Hk]. destruct (Nat.eq_dec pos k) as [<-|Hne].
        - rewrite set_nth_same in Hk by assumption. injection Hk as <-. exact Hoi'.
        - rewrite set_nth_other in Hk by assumption. rewrite Forall_forall in Hok. apply Hok. eapply nth_error_In; eauto. }
      { intros k Hk. destruct (Nat.eq_dec pos k) as [<-|Hne]; [contradiction|]. rewrite set_nth_other by assumption. apply Hp. right. exact Hk. }
      exists items'. split; [exact E|]. split; [rewrite Hl; apply set_nth_length; exact Hpos|].
      intros k x Hk. destruct (Nat.eq_dec pos k) as [<-|Hne].
      + rewrite Ei in Hk. injection Hk as <-. destruct (H pos i' ltac:(apply set_nth_same; exact Hpos)) as (y & Hy & H1 & _).
        rewrite (H1 Hn) in Hy. exists i'. split; [exact Hy|]. split; [intros Hc'; exfalso; apply Hc'; left; reflexivity|]. intros _. auto.
      + destruct (H k x ltac:(rewrite set_nth_other by assumption; exact Hk)) as (y & Hy & H1 & H2). exists y. split; [exact Hy|]. split.
        * intros Hk'. apply H1. intros Hc'. apply Hk'. right. exact Hc'.
        * intros [->|Hin]; [contradiction|auto].
  Qed.

  Lemma incomplete_In items k : In k (incomplete V items) <-> exists i, nth_error items k = Some i /\ p_complete (i_parse i) = false.
  Proof.
    unfold incomplete. rewrite in_map_iff. split.
    - intros ([k' i] & E & H). cbn in E. subst k'. apply filter_In in H. destruct H as [H1 H2]. apply enum_from_In in H1. destruct H1 as [_ H1].
      rewrite Nat.sub_0_r in H1. exists i. split; [exact H1|]. apply negb_true_iff in H2. exact H2.
    - intros (i & H1 & H2). exists (k, i). split; [reflexivity|]. apply filter_In. split.
      + apply enum_from_In. split; [lia|]. rewrite Nat.sub_0_r. exact H1.
      + rewrite H2. reflexivity.
  Qed.
  Lemma enum_fst_nodup {A} (l : list A) k : NoDup (map fst (enum_from k l)).
  Proof.
    revert k; induction l as [|x l IH]; intros k; cbn; [constructor|]. constructor; [|apply IH].
    intros H. apply in_map_iff in H. destruct H as ([i y] & E & Hin). cbn in E. subst i. apply enum_from_In in Hin. lia.
  Qed.
  Lemma NoDup_map_filter {A B} (f : A -> B) g l : NoDup (map f l) -> NoDup (map f (filter g l)).
  Proof.
    induction l as [|x l IH]; cbn; [auto|]. intros H. inversion H; subst. destruct (g x); cbn; [|auto]. constructor; [|auto].
    intros Hin. apply H2. apply in_map_iff in Hin. destruct Hin as (y & E & Hy). apply filter_In in Hy. rewrite <- E. apply in_map. tauto.
  Qed.
  Lemma incomplete_nodup items : NoDup (incomplete V items).
  Proof. apply NoDup_map_filter. apply enum_fst_nodup. Qed.
  Lemma foldM_batches {A S} (f : S -> A -> res S) bs s : foldM (fun its b => foldM f its b) s bs = foldM f s (concat bs).
  Proof.
    revert s; induction bs as [|b bs IH]; intros s; cbn; [reflexivity|]. rewrite foldM_app. destruct (foldM f s b); cbn; [apply IH|reflexivity].
  Qed.

  Lemma loop_ok bsz : 1 <= bsz -> forall fuel items, Forall item_ok items ->
    (forall i, In i items -> p_complete (i_parse i) = false -> msr (i_parse i) <= fuel) ->
    exists items', transition_loop V M fuel (Z.of_nat bsz) items = Ok items' /\
      Forall2 (fun i i' => item_ok i' /\ item_run i i' /\ p_complete (i_parse i') = true) items items'.
  Proof.
    intros Hb. induction fuel as [|f IH]; intros items Hok Hm.
    - assert (E : incomplete V items = []).
      { destruct (incomplete V items) as [|k ks] eqn:E; [reflexivity|]. exfalso.
        assert (Hk : In k (incomplete V items)) by (rewrite E; left; reflexivity). apply incomplete_In in Hk. destruct Hk as (i & Hi & Hc).
        pose proof (Hm i (nth_error_In _ _ Hi) Hc). unfold msr in H. unfold p_complete in Hc. destruct (p_buffer (i_parse i)); [discriminate|cbn in H; lia]. }
      cbn [transition_loop]. rewrite E. exists items. split; [reflexivity|]. apply Forall2_nth; [reflexivity|]. intros k a b Ha Hb'. rewrite Ha in Hb'. injection Hb' as <-.
      rewrite Forall_forall in Hok. split; [apply Hok; eapply nth_error_In; eauto|]. split; [apply item_run_refl|].
      destruct (p_complete (i_parse a)) eqn:Ec; [reflexivity|]. exfalso. assert (Hk : In k (incomplete V items)) by (apply incomplete_In; eauto). rewrite E in Hk. destruct Hk.
    - cbn [transition_loop]. destruct (incomplete V items) as [|k0 ks] eqn:E.
      + exists items. split; [reflexivity|]. apply Forall2_nth; [reflexivity|]. intros k a b Ha Hb'. rewrite Ha in Hb'. injection Hb' as <-.
        rewrite Forall_forall in Hok. split; [apply Hok; eapply nth_error_In; eauto|]. split; [apply item_run_refl|].
        destruct (p_complete (i_parse a)) eqn:Ec; [reflexivity|]. exfalso. assert (Hk : In k (incomplete V items)) by (apply incomplete_In; eauto). rewrite E in Hk. destruct Hk.
      + rewrite <- E. destruct (make_batches_spec (incomplete V items) bsz Hb) as (bs & Eb & Ec & _). rewrite Eb. cbn [rbind].
        rewrite foldM_batches, Ec.
        destruct (steps_ok (incomplete V items) (incomplete_nodup items) items Hok) as (items' & Es & Hl & H).
        { intros k Hk. apply incomplete_In. exact Hk. }
        change (foldM (MParser.step_at V M) items (incomplete V items)) with (foldM step_at items (incomplete V items)).
        rewrite Es. cbn [rbind].
        assert (Hstep : forall k i i', nth_error items k = Some i -> nth_error items' k = Some i' ->
                  item_ok i' /\ item_run i i' /\ (p_complete (i_parse i') = false -> msr (i_parse i') <= f)).
        { intros k i i' Hi Hi'. destruct (H k i Hi) as (i2 & Hi2 & H1 & H2). rewrite Hi' in Hi2. injection Hi2 as <-.
          rewrite Forall_forall in Hok.
          destruct (p_complete (i_parse i)) eqn:Ep.
          - assert (~ In k (incomplete V items)) as Hn by (intros Hin; apply incomplete_In in Hin; destruct Hin as (j & Hj & Hcj); congruence).
            rewrite (H1 Hn). split; [apply Hok; eapply nth_error_In; eauto|]. split; [apply item_run_refl|]. congruence.
          - assert (Hin : In k (incomplete V items)) by (apply incomplete_In; eauto). destruct (H2 Hin) as (A1 & A2 & A3).
            split; [exact A1|]. split; [exact A2|]. intros _. pose proof (Hm i (nth_error_In _ _ Hi) Ep). lia. }
        destruct (IH items') as (items'' & El & Hf).
        { apply Forall_forall. intros x Hx. apply In_nth_error in Hx. destruct Hx as [k Hk].
          destruct (nth_error items k) as [i|] eqn:Ei; [apply (Hstep k i x Ei Hk)|]. apply nth_error_None in Ei. assert (k < length items') by (apply nth_error_Some; congruence). lia. }
        { intros x Hx. apply In_nth_error in Hx. destruct Hx as [k Hk].
          destruct (nth_error items k) as [i|] eqn:Ei; [apply (Hstep k i x Ei Hk)|]. apply nth_error_None in Ei. assert (k < length items') by (apply nth_error_Some; congruence). lia. }
        exists items''. split; [exact El|]. pose proof (Forall2_len _ _ _ Hf) as Hl2. apply Forall2_nth; [lia|]. intros k a c Ha Hc.
        destruct (nth_error items' k) as [b|] eqn:Eb'.
        * destruct (Hstep k a b Ha Eb') as (_ & R1 & _).
          assert (R : item_ok c /\ item_run b c /\ p_complete (i_parse c) = true).
          { clear - Hf Eb' Hc. revert k Eb' Hc. induction Hf as [|x y l l' Hxy Hf IHf]; intros [|k] E1 E2; cbn in *; try discriminate.
            - congruence.
            - eapply IHf; eauto. }
          destruct R as (R2 & R3 & R4). split; [exact R2|]. split; [eapply item_run_trans; eauto|exact R4].
        * apply nth_error_None in Eb'. assert (k < length items'') by (apply nth_error_Some; congruence). lia.
  Qed.

  Lemma filter_len {A} (f : A -> bool) l : length (filter f l) <= length l.
  Proof. induction l as [|x l IH]; cbn; [lia|]. destruct (f x); cbn; lia. Qed.
  Lemma make_item_ok d n : m_length d = n + 2 -> n <= MAX_SENT_LENGTH ->
    exists i, make_item d = Ok i /\ item_ok i /\ i_mats i = d /\ i_tag_codes i = ptags_model M (m_chars d) (m_words d) /\
      i_dep_codes i = pdeps_model M (i_tag_codes i) (m_chars d) (m_words d) /\
      init_parse (n + 2) (i_tag_codes i) (i_dep_codes i) = Ok (i_parse i) /\ msr (i_parse i) <= 2 * MAX_SENT_LENGTH.
  Proof.
    intros Hd Hn. unfold MParser.make_item. rewrite Hd.
    destruct (init_parse_ok n _ _ Hn (ok_tags V M HM (m_chars d) (m_words d)) (ok_deps V M HM (ptags_model M (m_chars d) (m_words d)) (m_chars d) (m_words d)))
      as (p & E & _ & _ & Ht & Hdl & Hi & _ & Hm & _).
    rewrite E. cbn [rbind]. eexists. split; [reflexivity|]. cbn [i_parse i_mats i_tag_codes i_dep_codes].
    split; [split; cbn [i_parse]; [lia|exact Hi]|]. do 4 (split; [reflexivity||exact E|]).
    rewrite Hm. unfold msr0. assert (length (in_tree (p_deps p)) <= length (p_deps p)); [|lia].
    unfold in_tree. etransitivity; [apply filter_len|]. rewrite seq_length. lia.
  Qed.

  Lemma mapM_concat {A B} (f : A -> res B) bs ys : mapM f (concat bs) = Ok ys -> exists yss, mapM (mapM f) bs = Ok yss /\ concat yss = ys.
  Proof.
    revert ys; induction bs as [|b bs IH]; cbn; intros ys H; [injection H as <-; exists []; auto|].
    rewrite mapM_app in H. apply rbind_Ok in H. destruct H as (a & Ha & H). apply rbind_Ok in H. destruct H as (c & Hc & H). injection H as <-.
    destruct (IH c Hc) as (yss & E & Ec). rewrite Ha. cbn. rewrite E. cbn. exists (a :: yss). cbn. rewrite Ec. auto.
  Qed.
  Hypothesis HW : ws_ok V ws.
  (** every stage of the call succeeds *)
  Lemma parser_stages bsz token_lists : 1 <= bsz ->
    (forall toks, In toks token_lists -> length toks <= MAX_SENT_LENGTH) ->
    exists ms batches item_lists done trees, mapM (vectorize_sentence V v0 U cs ws) token_lists = Ok ms /\
      make_batches ms (Z.of_nat bsz) = Ok batches /\ mapM (mapM make_item) batches = Ok item_lists /\
      transition_loop V M (2 * PADDED_SENT_LENGTH) (Z.of_nat bsz) (concat item_lists) = Ok done /\
      mapM (fun i : item V => build_tree (i_parse i)) done = Ok trees /\
      length done = length token_lists /\ length trees = length token_lists /\
      Forall2 (fun toks out => parsed V v0 U M cs ws toks (fst out) (snd out)) token_lists (combine (map (fun i => p_tags (i_parse i)) done) trees).
  Proof.
    intros Hbs Hlen.
    destruct (mapM_ok_Forall (vectorize_sentence V v0 U cs ws) token_lists) as [ms Ems].
    { apply Forall_forall. intros toks Ht. rewrite vectorize_ok; eauto. }
    pose proof Ems as Ems0.
    pose proof (mapM_length _ _ _ Ems) as Lms. apply mapM_Ok_Forall2 in Ems.
    destruct (make_batches_spec ms bsz Hbs) as (bs & Eb & Ec & _).
    assert (Hml : forall d, In d ms -> exists n, m_length d = n + 2 /\ n <= MAX_SENT_LENGTH).
    { intros d Hd. clear - Ems Hd Hlen HW. induction Ems as [|toks d' l l' E Ems IH]; [destruct Hd|]. destruct Hd as [->|Hd].
      - pose proof (Hlen toks (or_introl eq_refl)) as Hl. rewrite vectorize_ok in E by assumption. injection E as <-. exists (length toks). cbn [m_length]. auto.
      - apply IH; [intros t Ht; apply Hlen; right; exact Ht|exact Hd]. }
    destruct (mapM_ok_Forall make_item ms) as [items Eit].
    { apply Forall_forall. intros d Hd. destruct (Hml d Hd) as (n & H1 & H2). destruct (make_item_ok d n H1 H2) as (i & E & _). eauto. }
    rewrite <- Ec in Eit. destruct (mapM_concat _ _ _ Eit) as (yss & Eyss & Ecc). rewrite Ec in Eit.
    pose proof (mapM_length _ _ _ Eit) as Lit. apply mapM_Ok_Forall2 in Eit.
    assert (Hit : forall i, In i items -> item_ok i /\ msr (i_parse i) <= 2 * MAX_SENT_LENGTH).
    { intros i Hi. clear - Eit Hi Hml HM. induction Eit as [|d i' l l' E Eit IH]; [destruct Hi|]. destruct Hi as [->|Hi].
      - destruct (Hml d (or_introl eq_refl)) as (n & H1 & H2). destruct (make_item_ok d n H1 H2) as (i2 & E2 & Hok & _ & _ & _ & _ & Hm).
        rewrite E in E2. injection E2 as <-. auto.
      - apply IH; [intros d' Hd'; apply Hml; right; exact Hd'|exact Hi]. }
    destruct (loop_ok bsz Hbs (2 * PADDED_SENT_LENGTH) items) as (done & El & Hdone).
    { apply Forall_forall. intros i Hi. apply Hit. exact Hi. }
    { intros i Hi _. destruct (Hit i Hi) as [_ Hm]. unfold PADDED_SENT_LENGTH. unfold MAX_SENT_LENGTH in *. lia. }
    pose proof (Forall2_len _ _ _ Hdone) as Ldone.
    set (tr := fun i : item V => match p_root (i_parse i) with None => None | Some r => Some (tree_of r (p_arcs (i_parse i))) end).
    assert (Etr : mapM (fun i : item V => build_tree (i_parse i)) done = Ok (map tr done)).
    { apply mapM_total. intros i Hi. clear - Hdone Hi. induction Hdone as [|a b l l' (Hok & _) Hd IH]; [destruct Hi|]. destruct Hi as [->|Hi]; [|auto].
      eapply build_tree_ok. apply Hok. }
    exists ms, bs, yss, done, (map tr done). split; [exact Ems0|]. split; [exact Eb|]. split; [exact Eyss|]. split; [rewrite Ecc; exact El|].
    split; [exact Etr|]. split; [lia|]. split; [rewrite map_length; lia|].
    clear - Ems Eit Hdone Hlen HW HM.
    revert items done Eit Hdone. induction Ems as [|toks d l l' E Ems IH]; intros items done Eit Hdone.
    - inversion Eit; subst. inversion Hdone; subst. constructor.
    - inversion Eit as [|d' i0 ld li E0 Eit']; subst. inversion Hdone as [|i0' i li' ld' (Hok & Hrun & Hc) Hdone']; subst. cbn [map combine].
      constructor; [|apply (IH (fun t Ht => Hlen t (or_intror Ht)) li ld'); assumption]. cbn [fst snd].
      pose proof (Hlen toks (or_introl eq_refl)) as Hl. pose proof E as E'. rewrite vectorize_ok in E' by assumption. injection E' as E'.
      assert (Hd : m_length d = length toks + 2) by (rewrite <- E'; reflexivity).
      destruct (make_item_ok d (length toks) Hd Hl) as (i2 & E2 & Hok2 & Hm2 & Ht2 & Hd2 & Hi2 & _). rewrite E0 in E2. injection E2 as <-.
      destruct Hrun as (R1 & R2 & R3 & ts & R4). exists d, (i_parse i0), ts, (i_parse i). split; [exact E|]. cbv zeta. rewrite Hd.
      rewrite <- Ht2, <- Hd2. rewrite Hm2 in R4. split; [exact Hi2|]. split; [exact R4|]. split; [exact Hc|]. split; [reflexivity|]. eapply build_tree_ok. apply Hok.
  Qed.

  Lemma parser_call_ok nb bsz token_lists : (1 <= nb)%Z -> 1 <= bsz -> (Z.of_nat (length token_lists) <= 2 ^ 53)%Z ->
    (forall toks, In toks token_lists -> length toks <= MAX_SENT_LENGTH) ->
    exists tags trees, parser_call V v0 U M cs ws nb (Z.of_nat bsz) token_lists = Ok (tags, trees) /\
      length tags = length token_lists /\ length trees = length token_lists /\
      Forall2 (fun toks out => parsed V v0 U M cs ws toks (fst out) (snd out)) token_lists (combine tags trees).
  Proof.
    intros Hnb Hbs HL Hlen. destruct (parser_stages bsz token_lists Hbs Hlen) as (ms & bs & its & done & trees & E1 & E2 & E3 & E4 & E5 & L1 & L2 & HF).
    unfold parser_call. rewrite (run_multithreads_total _ _ _ ms Hnb HL E1). cbn [rbind]. rewrite E2. cbn [rbind]. rewrite E3. cbn [rbind].
    rewrite E4. cbn [rbind]. rewrite <- L1 in HL. rewrite (run_multithreads_total _ _ _ _ Hnb HL E5). cbn [rbind].
    eexists; eexists. split; [reflexivity|]. rewrite map_length. auto.
  Qed.

  (** the predicted run is unique *)
  Lemma predicts_fun t d m p a b : predicts V M t d m p a -> predicts V M t d m p b -> a = b.
  Proof.
    intros (s & x & k & A1 & A2 & A3 & A4) (s' & x' & k' & B1 & B2 & B3 & B4).
    rewrite A1 in B1. injection B1 as <-. rewrite A2 in B2. injection B2 as <-. rewrite A3 in B3. injection B3 as <-.
    rewrite A4 in B4. destruct a, b; cbn in B4; congruence.
  Qed.
  Lemma prun_fun t d m p ts p' : predicted_run V M t d m p ts p' -> p_complete p' = true ->
    forall us p'', predicted_run V M t d m p us p'' -> p_complete p'' = true -> p' = p''.
  Proof.
    induction 1 as [p|p a p1 ts p2 Hc Hp Hr H IH]; intros E us p'' R E'; inversion R; subst; try congruence.
    rewrite (predicts_fun _ _ _ _ _ _ Hp H1) in Hr. apply IH with (us := ts0); congruence.
  Qed.
  Lemma parsed_fun toks ts tr ts' tr' : parsed V v0 U M cs ws toks ts tr -> parsed V v0 U M cs ws toks ts' tr' -> ts = ts' /\ tr = tr'.
  Proof.
    intros (d & p0 & r & p & A1 & A2 & A3 & A4 & A5 & A6) (d' & p0' & r' & p' & B1 & B2 & B3 & B4 & B5 & B6).
    rewrite A1 in B1. injection B1 as <-. rewrite A2 in B2. injection B2 as <-.
    pose proof (prun_fun _ _ _ _ _ _ A3 A4 _ _ B3 B4) as ->. split; congruence.
  Qed.
End Call.
