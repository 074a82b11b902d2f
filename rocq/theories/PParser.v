(** Properties C21-C24, C28 and C32: scrappybara/syntax/parser.py under arbitrary predictions. *)
From Coq Require Import Ascii String.
From Coq Require Import List NArith ZArith Arith Bool Lia.
From Verif Require Import PyBase Regex MUtils MTree MVector MParser SUtils STree SVector SParser LBase LText LTree LVector LParser LParserCall.
Import ListNotations.
Local Open Scope nat_scope.

(** a concrete run used below: 3 tokens SUBJ ROOT OBJ, predictions RIGHT, LEFT, SHIFT *)
Definition demo_tags : list nat := 0 :: 8 :: 14 :: 8 :: repeat 0 48.
Definition demo_deps : list nat := 0 :: 24 :: 2 :: 18 :: repeat 0 48.
Definition demo_p0 : parse := match init_parse (3 + 2) demo_tags demo_deps with Ok p => p | Err _ => {| p_tags := []; p_deps := []; p_buffer := []; p_stack := []; p_arcs := [] |} end.
Definition demo_after (ts : list trans) : parse :=
  match foldM register_transition demo_p0 ts with Ok p => p | Err _ => demo_p0 end.
Lemma demo_start : start 3 demo_p0.
Proof.
  split; [unfold MAX_SENT_LENGTH; lia|]. exists demo_tags, demo_deps.
  assert (F : forall b l, forallb (fun c => c <? b) l = true -> Forall (fun c => c < b) l).
  { intros b l H. apply Forall_forall. intros x Hx. rewrite forallb_forall in H. apply Nat.ltb_lt. auto. }
  split; [split; [reflexivity|apply F; reflexivity]|]. split; [split; [reflexivity|apply F; reflexivity]|]. reflexivity.
Qed.
Lemma demo_run : run demo_p0 [LEFT; RIGHT] (demo_after [LEFT; RIGHT]) /\ run demo_p0 [RIGHT; LEFT; SHIFT] (demo_after [RIGHT; LEFT; SHIFT]).
Proof.
  split; repeat (econstructor; [reflexivity|reflexivity|]); constructor.
Qed.

(** * C21: parsing terminates whatever is predicted *)
(** A transition never fails on an incomplete parse, and there are at most 2m-2 of them. *)
Theorem C21_parsing_terminates : forall n p0 ts p, start n p0 -> run p0 ts p ->
  length ts <= 2 * nb_in_tree (p_deps p0) - 1 /\
  (nb_in_tree (p_deps p0) > 0 -> length ts <= 2 * nb_in_tree (p_deps p0) - 2) /\
  (p_complete p = false ->
     (exists s b, stack_top p = Ok s /\ buffer_first p = Ok b /\ s < n /\ b < n) /\
     forall t, exists p', register_transition p t = Ok p').
Proof.
  intros n p0 ts p Hs Hr. destruct (parse_of_inv n p0 ts p Hs Hr) as (Hi & Hd & _ & Ln & _ & Hm & H1). split; [lia|]. split.
  - intros Hpos. destruct ts as [|t ts]; [cbn; lia|]. specialize (H1 ltac:(discriminate)). lia.
  - intros Hc. split.
    + pose proof Hi as (HC & Hne & Hw). unfold p_complete in Hc. unfold stack_top, buffer_first.
      destruct (p_buffer p) as [|b B]; [discriminate|]. destruct (p_stack p) as [|s S]; [exfalso; apply Hne; [discriminate|reflexivity]|].
      exists s, b. split; [reflexivity|]. split; [reflexivity|]. rewrite <- Ln. split; apply Hw; [apply (c_SW _ _ _ _ HC)|apply (c_BW _ _ _ _ HC)]; left; reflexivity.
    + intros t. destruct (LParser.step_inv _ _ t Hi Hc) as (p' & E & _). eauto.
Qed.
(** Hence Parser.__call__ returns: the loop over incomplete parses ends, for all models that answer
    with codes of tags, dependencies and transitions. [parsed]: the complete run, from the
    start state of the sentence, of the predicted transitions. *)
Theorem C21_parser_returns : forall (V : Type) (v0 : V) U (M : models V) cs ws nb_processes batch_size token_lists,
  models_ok V M -> ws_ok V ws -> (1 <= nb_processes)%Z -> 1 <= batch_size -> (Z.of_nat (length token_lists) <= 2 ^ 53)%Z ->
  (forall tokens, In tokens token_lists -> length tokens <= MAX_SENT_LENGTH) ->
  exists tags trees, parser_call V v0 U M cs ws nb_processes (Z.of_nat batch_size) token_lists = Ok (tags, trees) /\
    length tags = length token_lists /\ length trees = length token_lists /\
    Forall2 (fun tokens out => parsed V v0 U M cs ws tokens (fst out) (snd out)) token_lists (combine tags trees).
Proof. intros V v0 U M cs ws nb bs tl HM HW Hn Hb HL Hlen. apply parser_call_ok; assumption. Qed.
Example C21_witness : start 3 demo_p0 /\ nb_in_tree (p_deps demo_p0) = 3 /\
  run demo_p0 [RIGHT; LEFT; SHIFT] (demo_after [RIGHT; LEFT; SHIFT]) /\ p_complete (demo_after [RIGHT; LEFT; SHIFT]) = true.
Proof. split; [exact demo_start|]. split; [reflexivity|]. split; [apply demo_run|reflexivity]. Qed.

(** * C22: parses are acyclic and projective *)
Theorem C22_parses_wellformed : forall n p0 ts p, start n p0 -> run p0 ts p ->
  (forall l h c, In (l, h, c) (p_arcs p) -> h <> c /\ tok_in_tree (p_deps p) h /\ tok_in_tree (p_deps p) c) /\
  length (p_deps p) = n /\
  (forall x, ~ path (p_arcs p) x x) /\
  (forall a b, In a (p_arcs p) -> In b (p_arcs p) -> ~ (lo a < lo b < hi a /\ hi a < hi b)) /\
  NoDup (map (fun a => (lo a, hi a)) (p_arcs p)) /\
  (** the tree that is returned has these arcs: same children, and the parent of a node is one of its heads *)
  (forall t, build_tree p = Ok (Some t) ->
     (forall l h c, In (l, c) (t_children_of t h) <-> In (l, h, c) (p_arcs p)) /\
     (forall l h c, t_parent t c = Some (l, h) -> In (l, h, c) (p_arcs p)) /\
     (forall c, t_parent t c = None <-> forall l h, ~ In (l, h, c) (p_arcs p))).
Proof.
  intros n p0 ts p Hs Hr. destruct (parse_of_inv n p0 ts p Hs Hr) as (Hi & _ & _ & Ln & _). pose proof Hi as (HC & _).
  split; [|split; [exact Ln|split; [apply (c_acyclic _ _ _ _ HC)|split; [apply (c_planar _ _ _ _ HC)|split; [apply (c_pairs _ _ _ _ HC)|]]]]].
  2:{ intros t E. rewrite (build_tree_ok _ _ Hi) in E. destruct (p_root p) as [r|]; [|discriminate]. injection E as <-.
      split; [intros; apply In_children_of|]. split; [intros l h c E; rewrite tree_parent in E; apply last_reg_In; exact E|].
      intros c. rewrite tree_parent, last_reg_None. split.
      - intros Hn l h Hin. apply Hn. change c with (a_child (l, h, c)). apply in_map. exact Hin.
      - intros Hn Hin. apply in_map_iff in Hin. destruct Hin as ([[l h] c'] & E & Hin). cbn in E. subst. exact (Hn l h Hin). }
  intros l h c Hin. destruct (c_arc _ _ _ _ HC l h c Hin) as (H1 & H2 & H3 & _). split; [exact H1|]. split; apply in_tree_In; assumption.
Qed.
Example C22_witness : start 3 demo_p0 /\ run demo_p0 [LEFT; RIGHT] (demo_after [LEFT; RIGHT]) /\
  p_arcs (demo_after [LEFT; RIGHT]) = [(SUBJ, 1, 0); (OBJ, 1, 2)] /\
  exists t, build_tree (demo_after [LEFT; RIGHT]) = Ok (Some t) /\ t_parent t 2 = Some (OBJ, 1).
Proof. split; [exact demo_start|]. split; [apply demo_run|]. split; [reflexivity|]. eexists. split; reflexivity. Qed.

(** * C23: every parse has a well-defined root *)
Theorem C23_root : forall n p0 ts p, start n p0 -> run p0 ts p ->
  (exists o, build_tree p = Ok o /\ (o = None <-> p_arcs p = []) /\
    forall t, o = Some t ->
      (exists a, In a (p_arcs p) /\ (a_parent a = t_root t \/ a_child a = t_root t)) /\
      (forall a, In a (p_arcs p) -> a_child a <> t_root t) /\
      (forall x, (exists a, In a (p_arcs p) /\ (a_parent a = x \/ a_child a = x)) ->
                 (forall a, In a (p_arcs p) -> a_child a <> x) -> t_root t <= x)) /\
  (forall l h c, In (l, h, c) (p_arcs p) -> l <> ROOT /\
     exists d, nth_error (p_deps p) c = Some d /\ (d <> ROOT -> l = d) /\ (d = ROOT -> l = SPLIT)).
Proof.
  intros n p0 ts p Hs Hr. destruct (parse_of_inv n p0 ts p Hs Hr) as (Hi & Hd & _). pose proof Hi as (HC & _). split.
  - eexists. split; [apply (build_tree_ok _ _ Hi)|]. pose proof (p_root_None p (c_acyclic _ _ _ _ HC)) as HN. pose proof (p_root_spec p) as HR.
    destruct (p_root p) as [r|].
    + split; [split; [discriminate|intros E; apply HN in E; discriminate]|]. intros t E. injection E as <-. rewrite tree_of_root. destruct HR as (H1 & H2 & H3).
      split; [exact H1|]. split; [intros a Ha E; apply H2; rewrite <- E; apply in_map; exact Ha|].
      intros x (a & Ha & Hend) Hx. destruct Hend as [E|E]; [|exfalso; exact (Hx a Ha E)]. rewrite <- E. apply H3; [exact Ha|].
      intros Hin. apply in_map_iff in Hin. destruct Hin as (a' & E' & Ha'). apply (Hx a' Ha'). congruence.
    + split; [tauto|]. discriminate.
  - intros l h c Hin. destruct (c_arc _ _ _ _ HC l h c Hin) as (_ & _ & _ & Hl & _). split; [exact Hl|].
    destruct (start_inv n p0 Hs) as (_ & Ea & _). assert (HL : labels_ok (p_deps p0) (p_arcs p)) by (eapply run_labels; [exact Hr|rewrite Ea; intros ? ? ? []]).
    destruct (HL l h c Hin) as (d & E & ->). exists d. rewrite Hd. split; [exact E|]. split; [destruct d; congruence|intros ->; reflexivity].
Qed.
Example C23_witness : start 3 demo_p0 /\ run demo_p0 [LEFT; RIGHT] (demo_after [LEFT; RIGHT]) /\
  (exists t, build_tree (demo_after [LEFT; RIGHT]) = Ok (Some t) /\ t_root t = 1) /\ build_tree demo_p0 = Ok None.
Proof. split; [exact demo_start|]. split; [apply demo_run|]. split; [eexists; split; reflexivity|reflexivity]. Qed.

(** * C24: refuted. RIGHT then LEFT gives token 1 two heads, 0 and 2. *)
Theorem C24_refuted : exists n p0 ts p, start n p0 /\ run p0 ts p /\ p_complete p = true /\
  exists l h l' h' c, In (l, h, c) (p_arcs p) /\ In (l', h', c) (p_arcs p) /\ h <> h'.
Proof.
  exists 3, demo_p0, [RIGHT; LEFT; SHIFT], (demo_after [RIGHT; LEFT; SHIFT]). split; [exact demo_start|]. split; [apply demo_run|]. split; [reflexivity|].
  exists SPLIT, 0, SPLIT, 2, 1. split; [left; reflexivity|]. split; [right; left; reflexivity|lia].
Qed.
(** What holds: at most one head on the left and at most one on the right. Missing: one head. *)
Theorem C24_partial : forall n p0 ts p, start n p0 -> run p0 ts p ->
  forall l h c l' h', In (l, h, c) (p_arcs p) -> In (l', h', c) (p_arcs p) ->
  ((h < c /\ h' < c) \/ (c < h /\ c < h')) -> l = l' /\ h = h'.
Proof.
  intros n p0 ts p Hs Hr. destruct (start_inv n p0 Hs) as (Hi & Ea & _). eapply run_heads; [exact Hi|exact Hr|]. rewrite Ea. intros ? ? ? ? ? [].
Qed.

(** * C28: one tag per token *)
(** Refuted for Parser.__call__: a sentence of 51 tokens raises in a worker thread, the exception is
    lost, and the parser returns nothing for it and for the other sentences of the same thread. *)
Definition c28_models : models unit := {|
  ptags_model := fun _ _ => repeat 8 52; pdeps_model := fun _ _ _ => repeat 1 52; trans_model := fun _ _ _ _ _ _ => 3 |}.
Theorem C28_refuted : exists token_lists, (exists tokens, In tokens token_lists /\ length tokens = 51) /\
  parser_call unit tt ascii_udb c28_models [] [] 1 2 token_lists = Ok ([], []).
Proof.
  exists [repeat (lit "a") 51; repeat (lit "b") 3]. split; [exists (repeat (lit "a") 51); split; [left; reflexivity|reflexivity]|]. vm_compute. reflexivity.
Qed.
(** What holds: if no sentence has more than 50 tokens the i-th tag of a sentence is the one predicted
    for its i-th token (row i+1), and vectorization raises SentenceTooLongError exactly when there are
    more than 50. Missing: Parser.__call__ does not raise in that case. *)
Theorem C28_partial : forall (V : Type) (v0 : V) U (M : models V) cs ws, models_ok V M -> ws_ok V ws ->
  (forall tokens, vectorize_sentence V v0 U cs ws tokens = Err SentenceTooLongError <-> 50 < length tokens) /\
  (forall tokens, 50 >= length tokens -> exists d, vectorize_sentence V v0 U cs ws tokens = Ok d) /\
  forall nb_processes batch_size token_lists,
  (1 <= nb_processes)%Z -> 1 <= batch_size -> (Z.of_nat (length token_lists) <= 2 ^ 53)%Z ->
  (forall tokens, In tokens token_lists -> length tokens <= 50) ->
  exists tags trees, parser_call V v0 U M cs ws nb_processes (Z.of_nat batch_size) token_lists = Ok (tags, trees) /\
    length trees = length token_lists /\
    Forall2 (fun tokens ts => length ts = length tokens /\
      exists d, vectorize_sentence V v0 U cs ws tokens = Ok d /\
      forall i t, nth_error ts i = Some t -> exists code, nth_error (ptags_model M (m_chars d) (m_words d)) (S i) = Some code /\ tag_of_code code = Ok t)
      token_lists tags.
Proof.
  intros V v0 U M cs ws HM HW. split; [|split].
  - intros tokens. split.
    + intros E. destruct (Nat.le_gt_cases (length tokens) 50) as [H|H]; [|exact H]. rewrite vectorize_ok in E by assumption. discriminate.
    + apply vectorize_long.
  - intros tokens H. rewrite vectorize_ok by assumption. eauto.
  - intros nb bs tl Hn Hb HL Hlen. destruct (parser_call_ok V v0 U M cs ws HM HW nb bs tl Hn Hb HL Hlen) as (tags & trees & E & L1 & L2 & HF).
    exists tags, trees. split; [exact E|]. split; [exact L2|]. clear E HL.
    revert tags trees L1 L2 HF. induction tl as [|tokens tl IH]; intros [|ts tags] [|tr trees] L1 L2 HF; try discriminate; [constructor|].
    cbn [combine] in HF. inversion HF as [|? ? ? ? HP HF']; subst. constructor.
    + destruct HP as (d & p0 & tr0 & p & Ev & Ei & Hr & _ & Et & _). apply prun_run in Hr. cbn [fst] in Et.
      pose proof (Hlen tokens (or_introl eq_refl)) as Hl. pose proof Ev as Ev'. rewrite vectorize_ok in Ev' by assumption. injection Ev' as Ev'.
      assert (Hm : m_length d = length tokens + 2) by (rewrite <- Ev'; reflexivity). rewrite Hm in Ei.
      destruct (init_parse_ok (length tokens) _ _ Hl (ok_tags V M HM (m_chars d) (m_words d)) (ok_deps V M HM (ptags_model M (m_chars d) (m_words d)) (m_chars d) (m_words d)))
        as (q & Eq & Etags & _ & Lt & _ & Hi & _). rewrite Ei in Eq. injection Eq as <-.
      destruct (run_inv _ _ _ _ Hi Hr) as (_ & _ & Ept & _). rewrite Ept in Et. subst ts. split; [exact Lt|]. exists d. split; [exact Ev|].
      intros i t Hit. apply mapM_Ok_Forall2 in Etags. set (codes := ptags_model M (m_chars d) (m_words d)) in *.
      assert (Hc : exists code, nth_error (firstn (length tokens) (skipn 1 codes)) i = Some code /\ tag_of_code code = Ok t).
      { clear - Etags Hit. revert i Hit. induction Etags as [|c t' cs' ts' E Hf IH]; intros [|i] Hit; cbn in *; try discriminate; [injection Hit as <-; eauto|eauto]. }
      destruct Hc as (code & Hc & Htc). exists code. split; [|exact Htc].
      assert (Hilt : i < length tokens) by (rewrite <- Lt; apply nth_error_Some; congruence).
      rewrite LUtils.nth_error_firstn_lt, LUtils.nth_error_skipn_add in Hc by exact Hilt. exact Hc.
    + apply (IH (fun t Ht => Hlen t (or_intror Ht)) tags trees); [injection L1 as L1; exact L1|injection L2 as L2; exact L2|exact HF'].
Qed.
Example C28_witness : models_ok unit c28_models /\ ws_ok unit [] /\
  exists trees, parser_call unit tt ascii_udb c28_models [] [] 2 3 [[lit "a"; lit "b"]; [lit "c"]] = Ok ([[NOUN; NOUN]; [NOUN]], trees).
Proof.
  assert (F : forall b l, forallb (fun c => c <? b) l = true -> Forall (fun c => c < b) l).
  { intros b l H. apply Forall_forall. intros x Hx. rewrite forallb_forall in H. apply Nat.ltb_lt. auto. }
  split; [split; intros; [split; [reflexivity|apply F; reflexivity]|split; [reflexivity|apply F; reflexivity]|cbn; lia]|].
  split; [intros w v []|]. eexists. vm_compute. reflexivity.
Qed.

(** * C32: climbing and descending a parse tree *)
Theorem C32_ancestors_descendants : forall n p0 ts p t, start n p0 -> run p0 ts p -> build_tree p = Ok (Some t) ->
  (forall x l, exists anc, ancestors_via t x l = Ok anc /\ up_chain (p_arcs p) l x anc /\
     forall anc', up_chain (p_arcs p) l x anc' -> anc' = anc) /\
  (exists D : dep -> nat -> list nat,
     (forall x l, descendants_via t x l = Ok (D l x)) /\
     (forall x l, D l x = flat_map (fun c => c :: D l c) (kids (p_arcs p) l x)) /\
     (forall x l y, In y (D l x) <-> lpath (p_arcs p) l x y)).
Proof.
  intros n p0 ts p t Hs Hr Et. destruct (parse_of_inv n p0 ts p Hs Hr) as (Hi & _). pose proof Hi as (HC & _). pose proof (c_acyclic _ _ _ _ HC) as Hac.
  rewrite (build_tree_ok _ _ Hi) in Et. injection Et as Et. destruct (p_root p) as [r|]; [|discriminate]. injection Et as <-. split.
  - intros x l. destruct (ancestors_via_ok r (p_arcs p) Hac x l) as (anc & E & H). exists anc. split; [exact E|]. split; [exact H|].
    intros anc' H'. eapply up_chain_fun; eauto.
  - exists (fun l x => desc_of r (p_arcs p) l x). split; [|split].
    + intros x l. destruct (descendants_via_ok r (p_arcs p) Hac x l) as (d & E & _). unfold desc_of. rewrite E. reflexivity.
    + intros x l. apply descendants_eq. exact Hac.
    + intros x l y. destruct (descendants_via_ok r (p_arcs p) Hac x l) as (d & E & H). unfold desc_of. rewrite E. apply H.
Qed.
Example C32_witness : exists t, build_tree (demo_after [LEFT; RIGHT]) = Ok (Some t) /\ ancestors_via t 2 OBJ = Ok [1] /\ descendants_via t 1 SUBJ = Ok [0].
Proof. eexists. split; [reflexivity|]. split; reflexivity. Qed.

Print Assumptions C21_parsing_terminates.
Print Assumptions C21_parser_returns.
Print Assumptions C22_parses_wellformed.
Print Assumptions C23_root.
Print Assumptions C24_refuted.
Print Assumptions C24_partial.
Print Assumptions C28_refuted.
Print Assumptions C28_partial.
Print Assumptions C32_ancestors_descendants.
