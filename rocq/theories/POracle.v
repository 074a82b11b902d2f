(** Properties C25-C27: the transitions derived from labelled sentences (syntax/labelled_data.py). *)
From Coq Require Import Ascii String.
From Coq Require Import List NArith ZArith Arith Bool Lia.
From Verif Require Import PyBase Regex MUtils MTree MVector MParser MLabelled SUtils STree SParser SLabelled LBase LText LTree LParser LOracle.
Import ListNotations.
Local Open Scope nat_scope.

(** * C25: training transitions rebuild the labelled tree *)
(** [follows p0 trs p]: the parser makes the transitions one after the other and has, at each of them,
    the recorded pair of tokens at the top of its stack and in front of its buffer. *)
Theorem C25_transitions_rebuild : forall tuples n p0, projective_tree tuples ->
  start n p0 -> p_deps p0 = map tt_dep tuples ->
  exists l trs p, make_labelled tuples = Ok l /\ transitions l = Ok trs /\ follows p0 trs p /\ p_complete p = true /\
    (forall a, In a (p_arcs p) <-> labelled_arc tuples a) /\ NoDup (p_arcs p) /\
    (p_arcs p <> [] -> exists gold t, l_tree l = Some gold /\ build_tree p = Ok (Some t) /\ t_root t = t_root gold /\
       (forall x, t_parent t x = t_parent gold x) /\
       (forall x lab h, t_parent t x = Some (lab, h) <-> labelled_arc tuples (lab, h, x))).
Proof.
  intros tuples n p0 HP Hs Hd. destruct (start_inv n p0 Hs) as (Hi & Ea & EW & ES). rewrite Hd in *.
  destruct (make_labelled_ok tuples HP) as (r & tr & Er & Etr & El).
  destruct (oracle_rebuilds tuples HP _ p0 El Hi Hd Ea EW ES) as (trs & p & Et & Hf & Hc & Hdp & Hn & Ha).
  eexists; exists trs, p. split; [exact El|]. split; [exact Et|]. split; [exact Hf|]. split; [exact Hc|]. split; [|split].
  - intros a. rewrite Ha. apply gold_In.
  - eapply NoDup_map_inv. exact Hn.
  - intros Hne. destruct (same_tree tuples HP (p_arcs p) r tr Er Etr Ha p eq_refl Hne) as [Hr Hl].
    eexists; eexists. split; [reflexivity|]. split.
    + unfold build_tree. rewrite Hr. change (foldM (fun t '(d, pidx, cidx) => register_child t d pidx cidx) (new_tree r) (p_arcs p)) with (build r (p_arcs p)).
      rewrite build_ok; [reflexivity|]. apply Forall_forall. intros a Hin. apply Ha in Hin. pose proof (G_no_loop tuples HP) as HN. unfold no_loop in HN.
      rewrite Forall_forall in HN. apply HN. exact Hin.
    + rewrite !tree_of_root. split; [reflexivity|]. split.
      * intros x. rewrite !tree_parent. apply Hl.
      * intros x lab h. rewrite tree_parent, Hl. rewrite <- gold_In. split; [apply last_reg_In|]. intros Hin. apply last_reg_unique; [|exact Hin].
        intros l' p' H'. eapply G_fun; eauto.
Qed.

(** a five token sentence: 0 <- 1(ROOT) -> 3 -> 2, 4 out of the tree *)
Definition tup (d : dep) (p : Z) : token_tuple := {| tt_token := lit "w"; tt_tag := NOUN; tt_dep := d; tt_parent := p |}.
Definition c25_sentence : list token_tuple := [tup SUBJ 1; tup ROOT (-1); tup ART 3; tup OBJ 1; tup NODEP (-1)].
Definition codes_for (l : list nat) : list nat := firstn 52 (0 :: l ++ repeat 0 52).
Definition c25_p0 : parse := match init_parse (5 + 2) (codes_for []) (codes_for [24; 2; 4; 18; 1]) with
  | Ok p => p | Err _ => {| p_tags := []; p_deps := []; p_buffer := []; p_stack := []; p_arcs := [] |} end.
Lemma Forall_ltb b l : forallb (fun c => c <? b) l = true -> Forall (fun c => c < b) l.
Proof. intros H. apply Forall_forall. intros x Hx. rewrite forallb_forall in H. apply Nat.ltb_lt. auto. Qed.
Example C25_witness : projective_tree c25_sentence /\ start 5 c25_p0 /\ p_deps c25_p0 = map tt_dep c25_sentence /\
  exists l trs, make_labelled c25_sentence = Ok l /\ transitions l = Ok trs /\ map snd trs = [LEFT; SHIFT; LEFT; RIGHT].
Proof.
  assert (HA : forall a, labelled_arc c25_sentence a -> a = (SUBJ, 1, 0) \/ a = (ART, 3, 2) \/ a = (OBJ, 1, 3)).
  { intros [[l p] c] (t & E & H1 & H2 & H3 & H4). cbn in *.
    destruct c as [|[|[|[|[|c]]]]]; cbn in E; try (destruct c; discriminate); injection E as <-; cbn in *; try congruence;
    rewrite <- H1; [left|right; left|right; right]; repeat f_equal; lia. }
  assert (HD : forall x y, dominates c25_sentence x y -> (x = 1 /\ (y = 0 \/ y = 2 \/ y = 3)) \/ (x = 3 /\ y = 2)).
  { intros x y H. induction H as [l p c H|l p m c H Hd IH]; apply HA in H.
    - destruct H as [E|[E|E]]; injection E as _ -> ->; auto 6.
    - destruct H as [E|[E|E]]; injection E as _ -> ->; intuition lia. }
  split; [|split; [|split; [reflexivity|]]].
  - constructor.
    + exists 1, (tup ROOT (-1)). split; [reflexivity|]. split; [reflexivity|]. intros r' t' E H.
      destruct r' as [|[|[|[|[|r']]]]]; cbn in E; try (destruct r'; discriminate); injection E as <-; cbn in H; congruence.
    + intros i t E H1 H2. destruct i as [|[|[|[|[|i]]]]]; cbn in E; try (destruct i; discriminate); injection E as <-; cbn in *; try congruence.
      * exists 1. split; [reflexivity|]. exists (tup ROOT (-1)). split; [reflexivity|discriminate].
      * exists 3. split; [reflexivity|]. exists (tup OBJ 1). split; [reflexivity|discriminate].
      * exists 1. split; [reflexivity|]. exists (tup ROOT (-1)). split; [reflexivity|discriminate].
    + intros i H. apply HD in H. lia.
    + intros l p c k H Hv Hk. apply HA in H. destruct H as [E|[E|E]]; injection E as _ -> ->; cbn in Hk; try lia.
      assert (k = 2) as -> by lia. eapply dom_more with (m := 3); [exists (tup OBJ 1)|eapply dom_one; exists (tup ART 3)]; repeat split; discriminate || reflexivity.
  - split; [unfold MAX_SENT_LENGTH; lia|]. exists (codes_for []), (codes_for [24; 2; 4; 18; 1]).
    split; [split; [reflexivity|apply Forall_ltb; reflexivity]|]. split; [split; [reflexivity|apply Forall_ltb; reflexivity]|reflexivity].
  - eexists; eexists. split; [reflexivity|]. split; reflexivity.
Qed.

(** * C26: refuted. The arc 0 -> 2 spans the root 1: no arcs cross, and it is not rebuilt. *)
Definition c26_sentence : list token_tuple := [tup SUBJ 1; tup ROOT (-1); tup PROP 0].
Definition c26_p0 : parse := match init_parse (3 + 2) (codes_for []) (codes_for [24; 2; 22]) with
  | Ok p => p | Err _ => {| p_tags := []; p_deps := []; p_buffer := []; p_stack := []; p_arcs := [] |} end.
Theorem C26_refuted : exists tuples n p0 l gold trs p, make_labelled tuples = Ok l /\ l_tree l = Some gold /\
  start n p0 /\ p_deps p0 = map tt_dep tuples /\
  (forall c1 c2, c1 < length tuples -> c2 < length tuples -> have_crossing_arcs gold c1 c2 = Ok false) /\
  transitions l = Ok trs /\ follows p0 trs p /\ p_complete p = true /\
  exists a, labelled_arc tuples a /\ ~ In a (p_arcs p).
Proof.
  exists c26_sentence, 3, c26_p0. eexists; eexists; eexists; eexists. split; [reflexivity|]. split; [reflexivity|]. split; [|split; [reflexivity|split; [|split; [reflexivity|split; [|split]]]]].
  - split; [unfold MAX_SENT_LENGTH; lia|]. exists (codes_for []), (codes_for [24; 2; 22]).
    split; [split; [reflexivity|apply Forall_ltb; reflexivity]|]. split; [split; [reflexivity|apply Forall_ltb; reflexivity]|reflexivity].
  - intros c1 c2 H1 H2. cbn in H1, H2. destruct c1 as [|[|[|c1]]]; [| | |lia]; destruct c2 as [|[|[|c2]]]; try lia; reflexivity.
  - repeat (econstructor; [reflexivity|reflexivity|reflexivity|]). constructor.
  - reflexivity.
  - exists (PROP, 0, 2). split; [exists (tup PROP 0); repeat split; discriminate|]. intros H. vm_compute in H. repeat (destruct H as [H|H]; [discriminate H|]). exact H.
Qed.
(** What holds: it suffices that moreover no arc spans the root. Missing: the case of an arc over the root. *)
Theorem C26_partial : forall tuples n p0 r tr,
  nth_error tuples r = Some tr -> tt_dep tr = ROOT ->
  (forall r' t', nth_error tuples r' = Some t' -> tt_dep t' = ROOT -> r' = r) ->
  (forall i t, nth_error tuples i = Some t -> tt_dep t <> NODEP -> tt_dep t <> ROOT -> exists p, tt_parent t = Z.of_nat p /\ valid tuples p) ->
  (forall i, ~ dominates tuples i i) ->
  (forall gold l c1 c2, make_labelled tuples = Ok l -> l_tree l = Some gold -> valid tuples c1 -> valid tuples c2 -> have_crossing_arcs gold c1 c2 = Ok false) ->
  (forall a, labelled_arc tuples a -> ~ (lo a < r < hi a)) ->
  start n p0 -> p_deps p0 = map tt_dep tuples ->
  exists l trs p, make_labelled tuples = Ok l /\ transitions l = Ok trs /\ follows p0 trs p /\ p_complete p = true /\
    forall a, In a (p_arcs p) <-> labelled_arc tuples a.
Proof.
  intros tuples n p0 r tr Er Etr Hu Hh Hcy Hx Hsp Hs Hd.
  assert (HP : projective_tree tuples) by (eapply planar_projective; eauto).
  destruct (C25_transitions_rebuild tuples n p0 HP Hs Hd) as (l & trs & p & H1 & H2 & H3 & H4 & H5 & _). exists l, trs, p. auto.
Qed.

(** * C27: the crossing test *)
Definition strictly_inside (x : nat) (a : nat * nat) : Prop := Nat.min (fst a) (snd a) < x < Nat.max (fst a) (snd a).
Theorem C27_crossing_test : forall a b : nat * nat,
  (arcs_are_crossing a b = true <->
     fst a <> fst b /\ fst a <> snd b /\ snd a <> fst b /\ snd a <> snd b /\
     ((strictly_inside (fst b) a /\ ~ strictly_inside (snd b) a) \/ (strictly_inside (snd b) a /\ ~ strictly_inside (fst b) a))) /\
  arcs_are_crossing b a = arcs_are_crossing a b /\
  arcs_are_crossing (snd a, fst a) b = arcs_are_crossing a b /\
  arcs_are_crossing a (snd b, fst b) = arcs_are_crossing a b.
Proof.
  intros [a1 b1] [a2 b2]. cbn [fst snd].
  assert (E : forall x y : bool, (x = true <-> y = true) -> x = y) by (intros [] []; intuition).
  split; [|split; [|split]].
  - rewrite crossing_spec. unfold strictly_inside. cbn [fst snd]. lia.
  - apply E. rewrite !crossing_spec. tauto.
  - apply E. rewrite !crossing_spec. lia.
  - apply E. rewrite !crossing_spec. lia.
Qed.
Example C27_witness : arcs_are_crossing (5, 1) (3, 8) = true /\ arcs_are_crossing (1, 5) (2, 5) = false.
Proof. split; reflexivity. Qed.
(** The test between the arcs above two tokens of a sentence with a root, in which no token is its own parent. *)
Theorem C27_sentence : forall tuples r tr l gold,
  nth_error tuples r = Some tr -> tt_dep tr = ROOT ->
  (forall r' t', nth_error tuples r' = Some t' -> tt_dep t' = ROOT -> r' = r) ->
  (forall lb c, ~ labelled_arc tuples (lb, c, c)) ->
  make_labelled tuples = Ok l -> l_tree l = Some gold ->
  forall c1 c2,
  ((c1 = r \/ c2 = r) -> have_crossing_arcs gold c1 c2 = Ok false) /\
  (forall l1 p1 l2 p2, labelled_arc tuples (l1, p1, c1) -> labelled_arc tuples (l2, p2, c2) ->
     have_crossing_arcs gold c1 c2 = Ok (arcs_are_crossing (p1, c1) (p2, c2))) /\
  (c1 <> r -> c2 <> r -> (forall lb p, ~ labelled_arc tuples (lb, p, c1)) \/ (forall lb p, ~ labelled_arc tuples (lb, p, c2)) ->
     have_crossing_arcs gold c1 c2 = Err TypeError).
Proof.
  intros tuples r tr l gt Er Etr Hu Hnl El Eg c1 c2.
  assert (NL : no_loop (gold tuples)).
  { apply Forall_forall. intros [[lb p] c] H. cbn. intros ->. apply gold_In in H. exact (Hnl _ _ H). }
  rewrite (rooted_labelled tuples r tr Er Etr Hu NL) in El. injection El as <-. cbn [l_tree] in Eg. injection Eg as <-.
  unfold have_crossing_arcs. rewrite tree_of_root, !tree_parent.
  assert (HF : forall lb p c, labelled_arc tuples (lb, p, c) -> (c =? r) = false /\ last_reg (gold tuples) c = Some (lb, p)).
  { intros lb p c Ha. split.
    - apply Nat.eqb_neq. intros ->. destruct Ha as (t & E & E1 & _ & E2 & _). cbn in E. rewrite Er in E. injection E as <-. congruence.
    - apply last_reg_unique; [|apply gold_In; exact Ha]. intros l' p' H. apply gold_In in H. destruct Ha as (t & E & E1 & E2 & _). destruct H as (t' & E' & E1' & E2' & _).
      cbn in *. rewrite E in E'. injection E' as <-. split; [congruence|lia]. }
  assert (HN : forall c, (forall lb p, ~ labelled_arc tuples (lb, p, c)) -> last_reg (gold tuples) c = None).
  { intros c Hc. apply last_reg_None. intros Hin. apply in_map_iff in Hin. destruct Hin as ([[lb p] c'] & E & Hin). cbn in E. subst. apply gold_In in Hin. exact (Hc _ _ Hin). }
  split; [|split].
  - intros [-> | ->]; rewrite Nat.eqb_refl, ?orb_true_r; reflexivity.
  - intros l1 p1 l2 p2 H1 H2. destruct (HF _ _ _ H1) as [-> ->]. destruct (HF _ _ _ H2) as [-> ->]. reflexivity.
  - intros H1 H2 H. apply Nat.eqb_neq in H1. apply Nat.eqb_neq in H2. rewrite H1, H2. cbn [orb]. destruct H as [H|H]; rewrite (HN _ H).
    + reflexivity.
    + destruct (last_reg (gold tuples) c1); reflexivity.
Qed.
Example C27_sentence_witness : let tuples := [tup SUBJ 1; tup ROOT (-1); tup PROP 0; tup OBJ 1] in
  exists l gold, make_labelled tuples = Ok l /\ l_tree l = Some gold /\
    labelled_arc tuples (PROP, 0, 2) /\ labelled_arc tuples (OBJ, 1, 3) /\
    have_crossing_arcs gold 2 3 = Ok true /\ have_crossing_arcs gold 1 3 = Ok false.
Proof.
  eexists. eexists. split; [reflexivity|]. split; [reflexivity|].
  split; [exists (tup PROP 0)|split; [exists (tup OBJ 1)|split; reflexivity]]; repeat split; discriminate.
Qed.

Print Assumptions C25_transitions_rebuild.
Print Assumptions C26_refuted.
Print Assumptions C26_partial.
Print Assumptions C27_crossing_test.
Print Assumptions C27_sentence.
