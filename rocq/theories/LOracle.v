(** Proofs about syntax/labelled_data.py: the transitions derived from a labelled sentence rebuild it. *)
From Coq Require Import List NArith ZArith Arith Bool Lia Sorted.
From Verif Require Import PyBase Regex MUtils MTree MVector MParser MLabelled SUtils STree SParser SLabelled LBase LText LTree LVector LParser.
Import ListNotations.
Local Open Scope nat_scope.

(** * Abstract part: gold arcs *)
Section Gold.
  Context (W : list nat) (G : list arc) (root : nat) (deps : list dep).
  Hypothesis Hac : acyclic G.
  Hypothesis Hfun : forall l p c l' p', In (l, p, c) G -> In (l', p', c) G -> l' = l /\ p' = p.
  Hypothesis Hproj : forall l p c k, In (l, p, c) G -> In k W -> Nat.min p c < k < Nat.max p c -> path G p k.
  Hypothesis HGW : forall l p c, In (l, p, c) G -> In p W /\ In c W.
  Hypothesis Hlab : forall l p c, In (l, p, c) G -> nth_error deps c = Some l /\ l <> ROOT.
  Notation T := (tree_of root G).

  Lemma path_pred x y l p : path G x y -> In (l, p, y) G -> x = p \/ path G x p.
  Proof.
    intros H Hp. induction H as [l' x y Hin|l' x z y Hin Hpath IH].
    - destruct (Hfun _ _ _ _ _ Hin Hp) as [_ ->]. auto.
    - right. destruct (IH Hp) as [->|H']; [eapply path_one; eauto|eapply path_more; eauto].
  Qed.
  Lemma gold_planar : non_crossing G.
  Proof.
    intros [[l1 p1] c1] [[l2 p2] c2] H1 H2 [[A B] C]. unfold lo, hi in *. cbn [a_parent a_child fst snd] in *.
    destruct (HGW _ _ _ H1) as [P1 C1]. destruct (HGW _ _ _ H2) as [P2 C2].
    assert (L2 : path G p1 (Nat.min p2 c2)).
    { eapply Hproj; [exact H1| |lia]. destruct (Nat.min_spec p2 c2) as [[_ ->]|[_ ->]]; assumption. }
    assert (R1 : path G p2 (Nat.max p1 c1)).
    { eapply Hproj; [exact H2| |lia]. destruct (Nat.max_spec p1 c1) as [[_ ->]|[_ ->]]; assumption. }
    destruct (Nat.lt_ge_cases p1 c1) as [K1|K1]; destruct (Nat.lt_ge_cases p2 c2) as [K2|K2].
    - rewrite Nat.min_l in L2 by lia. rewrite Nat.max_r in R1 by lia.
      destruct (path_pred _ _ _ _ R1 H1) as [->|E]; [lia|]. exact (Hac _ (path_trans _ _ _ _ L2 E)).
    - rewrite Nat.min_r in L2 by lia. rewrite Nat.max_r in R1 by lia.
      destruct (path_pred _ _ _ _ R1 H1) as [->|E]; [lia|]. destruct (path_pred _ _ _ _ L2 H2) as [->|E2]; [lia|].
      exact (Hac _ (path_trans _ _ _ _ E E2)).
    - rewrite Nat.min_l in L2 by lia. rewrite Nat.max_l in R1 by lia. exact (Hac _ (path_trans _ _ _ _ L2 R1)).
    - rewrite Nat.min_r in L2 by lia. rewrite Nat.max_l in R1 by lia.
      destruct (path_pred _ _ _ _ L2 H2) as [->|E2]; [lia|]. exact (Hac _ (path_trans _ _ _ _ E2 R1)).
  Qed.

  Lemma is_parent_spec p c : l_is_parent T p c = true <-> exists l, In (l, p, c) G.
  Proof.
    unfold l_is_parent. rewrite tree_parent. split.
    - destruct (last_reg G c) as [[l q]|] eqn:E; [|discriminate]. intros H. apply Nat.eqb_eq in H. subst q. exists l. apply last_reg_In. exact E.
    - intros (l & H). rewrite (last_reg_unique G c l p); [apply Nat.eqb_refl| |exact H]. intros l' p' H'. exact (Hfun _ _ _ _ _ H H').
  Qed.
  Lemma arc_before_spec b s : has_arc_before T b s = true <-> exists l x, x < s /\ (In (l, x, b) G \/ In (l, b, x) G).
  Proof.
    unfold has_arc_before. rewrite orb_true_iff, tree_parent, existsb_exists. split.
    - intros [H|([l c] & Hin & H)].
      + destruct (last_reg G b) as [[l p]|] eqn:E; [|discriminate]. apply Nat.ltb_lt in H. apply last_reg_In in E. eauto.
      + apply Nat.ltb_lt in H. apply In_children_of in Hin. eauto.
    - intros (l & x & Hlt & [H|H]).
      + left. rewrite (last_reg_unique G b l x); [apply Nat.ltb_lt; exact Hlt| |exact H]. intros l' p' H'. exact (Hfun _ _ _ _ _ H H').
      + right. exists (l, x). split; [apply In_children_of; exact H|apply Nat.ltb_lt; exact Hlt].
  Qed.

  (** each gold arc is built, or still can be *)
  Definition pending (S B : list nat) (A : list arc) : Prop :=
    forall a, In a G -> In a A \/ (In (hi a) B /\ (In (lo a) S \/ In (lo a) B)).
  Record oinv (S B : list nat) (A : list arc) : Prop := {
    o_core : core W S B A;
    o_pend : pending S B A;
    o_sub : incl A G
  }.
  Lemma arc_ends l p c : In (l, p, c) G -> (lo (l, p, c) = p /\ hi (l, p, c) = c /\ p < c) \/ (lo (l, p, c) = c /\ hi (l, p, c) = p /\ c < p).
  Proof.
    intros H. assert (p <> c) by (intros ->; apply (Hac c); eapply path_one; eauto). unfold lo, hi; cbn. lia.
  Qed.
  Lemma between a s b : In a G -> lo a = s -> hi a = b -> exists l, a = (l, b, s) \/ a = (l, s, b).
  Proof.
    destruct a as [[l p] c]. intros H E1 E2. exists l. destruct (arc_ends l p c H) as [(A1 & A2 & _)|(A1 & A2 & _)]; [right|left]; congruence.
  Qed.
  Lemma no_two_way l l' x y : In (l, x, y) G -> In (l', y, x) G -> False.
  Proof. intros H1 H2. apply (Hac x). eapply path_more; [exact H1|]. eapply path_one; eauto. Qed.

  Lemma step_left s S b B A l : oinv (s :: S) (b :: B) A -> In (l, b, s) G -> oinv S (b :: B) (A ++ [(l, b, s)]).
  Proof.
    intros [HC HP HS] HG. destruct (Hlab _ _ _ HG) as [_ Hd].
    assert (Hlt : s < b) by (apply (c_SB _ _ _ _ HC); left; reflexivity). constructor.
    - apply core_left; assumption.
    - intros a Ha. destruct (HP a Ha) as [H|[H1 H2]]; [left; apply in_or_app; auto|].
      destruct (Nat.eq_dec (lo a) s) as [E|E].
      + left. apply in_or_app. right. left. destruct (Nat.eq_dec (hi a) b) as [E2|E2].
        * destruct (between a s b Ha E E2) as (l' & [->| ->]); [destruct (Hfun _ _ _ _ _ HG Ha) as [-> _]; reflexivity|].
          exfalso. eapply no_two_way; eauto.
        * exfalso. assert (Hk : b < hi a) by (destruct H1 as [H1|H1]; [congruence|exact (SS_lt_head _ _ _ (c_B _ _ _ _ HC) H1)]).
          destruct (between a s (hi a) Ha E eq_refl) as (l' & [Ea|Ea]); rewrite Ea in Ha.
          -- destruct (Hfun _ _ _ _ _ HG Ha) as [_ Eh]. lia.
          -- assert (path G s b) by (eapply Hproj; [exact Ha|apply (c_BW _ _ _ _ HC); left; reflexivity|lia]).
             apply (Hac s). eapply path_trans; [exact H|]. eapply path_one; eauto.
      + right. split; [exact H1|]. destruct H2 as [[H2|H2]|H2]; [congruence|auto|auto].
    - intros a Ha. apply in_app_iff in Ha. destruct Ha as [Ha|[<-|[]]]; auto.
  Qed.
  Lemma step_right s S b B A l : oinv (s :: S) (b :: B) A -> In (l, s, b) G -> oinv (b :: s :: S) B (A ++ [(l, s, b)]).
  Proof.
    intros [HC HP HS] HG. destruct (Hlab _ _ _ HG) as [_ Hd].
    assert (Hlt : s < b) by (apply (c_SB _ _ _ _ HC); left; reflexivity). constructor.
    - apply core_right; assumption.
    - intros a Ha. destruct (HP a Ha) as [H|[H1 H2]]; [left; apply in_or_app; auto|].
      destruct (Nat.eq_dec (hi a) b) as [E|E].
      + left. apply in_or_app. right. left.
        assert (Hlo : lo a = s \/ In (lo a) S).
        { destruct H2 as [[H2|H2]|[H2|H2]]; [auto|auto| |].
          - exfalso. destruct a as [[la pa] ca]. destruct (arc_ends _ _ _ Ha) as [(A1 & A2 & A3)|(A1 & A2 & A3)]; lia.
          - exfalso. pose proof (SS_lt_head _ _ _ (c_B _ _ _ _ HC) H2). destruct a as [[la pa] ca]. destruct (arc_ends _ _ _ Ha) as [(A1 & A2 & A3)|(A1 & A2 & A3)]; lia. }
        destruct Hlo as [El|Hin].
        * destruct (between a s b Ha El E) as (l' & [->| ->]).
          -- exfalso. eapply no_two_way; eauto.
          -- destruct (Hfun _ _ _ _ _ HG Ha) as [-> _]. reflexivity.
        * exfalso. pose proof (SS_gt_head _ _ _ (c_S _ _ _ _ HC) Hin) as Hl.
          destruct (between a (lo a) b Ha eq_refl E) as (l' & [Ea|Ea]); rewrite Ea in Ha.
          -- assert (path G b s) by (eapply Hproj; [exact Ha|apply (c_SW _ _ _ _ HC); left; reflexivity|lia]).
             apply (Hac s). eapply path_more; [exact HG|exact H].
          -- destruct (Hfun _ _ _ _ _ HG Ha) as [_ Es]. lia.
      + right. split; [destruct H1; [congruence|assumption]|]. destruct H2 as [H2|[H2|H2]]; [left; right; exact H2|left; left; exact H2|auto].
    - intros a Ha. apply in_app_iff in Ha. destruct Ha as [Ha|[<-|[]]]; auto.
  Qed.
  Lemma step_reduce s S b B A : oinv (s :: S) (b :: B) A -> (forall l, ~ In (l, b, s) G) -> (forall l, ~ In (l, s, b) G) ->
    (exists l x, x < s /\ (In (l, x, b) G \/ In (l, b, x) G)) -> oinv S (b :: B) A.
  Proof.
    intros [HC HP HS] HL HR (l & x & Hx & Hxb).
    assert (Hlt : s < b) by (apply (c_SB _ _ _ _ HC); left; reflexivity). constructor; [eapply core_pop; eauto| |assumption].
    intros a Ha. destruct (HP a Ha) as [H|[H1 H2]]; [auto|]. right. split; [exact H1|].
    destruct H2 as [[E|H2]|H2]; [|auto|auto]. exfalso. symmetry in E.
    destruct (Nat.eq_dec (hi a) b) as [E2|E2].
    - destruct (between a s b Ha E E2) as (l' & [->| ->]); [eapply HL|eapply HR]; eauto.
    - assert (Hk : b < hi a) by (destruct H1 as [H1|H1]; [congruence|exact (SS_lt_head _ _ _ (c_B _ _ _ _ HC) H1)]).
      destruct Hxb as [Hxb|Hxb]; apply (gold_planar _ _ Hxb Ha); unfold crossing; rewrite E; unfold lo at 1, hi at 1 2; cbn [a_parent a_child fst snd]; lia.
  Qed.
  Lemma step_shift s S b B A : oinv (s :: S) (b :: B) A -> (forall l, ~ In (l, b, s) G) -> (forall l, ~ In (l, s, b) G) ->
    ~ (exists l x, x < s /\ (In (l, x, b) G \/ In (l, b, x) G)) -> oinv (b :: s :: S) B A.
  Proof.
    intros [HC HP HS] HL HR HN. constructor; [apply core_shift; assumption| |assumption].
    intros a Ha. destruct (HP a Ha) as [H|[H1 H2]]; [auto|].
    destruct (Nat.eq_dec (hi a) b) as [E|E].
    - exfalso. destruct H2 as [[H2|H2]|[H2|H2]].
      + destruct (between a s b Ha (eq_sym H2) E) as (l' & [->| ->]); [eapply HL|eapply HR]; eauto.
      + pose proof (SS_gt_head _ _ _ (c_S _ _ _ _ HC) H2) as Hl. apply HN.
        destruct (between a (lo a) b Ha eq_refl E) as (l' & [Ea|Ea]); rewrite Ea in Ha; exists l', (lo a); auto.
      + destruct a as [[la pa] ca]. destruct (arc_ends _ _ _ Ha) as [(A1 & A2 & A3)|(A1 & A2 & A3)]; lia.
      + pose proof (SS_lt_head _ _ _ (c_B _ _ _ _ HC) H2). destruct a as [[la pa] ca]. destruct (arc_ends _ _ _ Ha) as [(A1 & A2 & A3)|(A1 & A2 & A3)]; lia.
    - right. split; [destruct H1; [congruence|assumption]|]. destruct H2 as [H2|[H2|H2]]; [left; right; exact H2|left; left; exact H2|auto].
  Qed.
  Lemma step_first b B A : oinv [] (b :: B) A -> oinv [b] B A.
  Proof.
    intros [HC HP HS]. constructor; [apply core_shift; assumption| |assumption].
    intros a Ha. destruct (HP a Ha) as [H|[H1 H2]]; [auto|]. destruct H2 as [[]|H2].
    destruct (Nat.eq_dec (hi a) b) as [E|E].
    - exfalso. destruct H2 as [H2|H2].
      + destruct a as [[la pa] ca]. destruct (arc_ends _ _ _ Ha) as [(A1 & A2 & A3)|(A1 & A2 & A3)]; lia.
      + pose proof (SS_lt_head _ _ _ (c_B _ _ _ _ HC) H2). destruct a as [[la pa] ca]. destruct (arc_ends _ _ _ Ha) as [(A1 & A2 & A3)|(A1 & A2 & A3)]; lia.
    - right. split; [destruct H1; [congruence|assumption]|]. destruct H2 as [H2|H2]; [left; left; exact H2|auto].
  Qed.

  (** the parser shifts at once when its stack gets empty *)
  Definition norm (S B : list nat) : list nat * list nat := match S, B with [], b :: bs => ([b], bs) | _, _ => (S, B) end.
  Lemma pdep_gold p l h c : p_deps p = deps -> In (l, h, c) G -> p_pdep p c = Ok l.
  Proof.
    intros Ed H. destruct (Hlab _ _ _ H) as [E Hr]. unfold p_pdep. rewrite Ed, index_nat, E. cbn. destruct l; congruence || reflexivity.
  Qed.
  Lemma reduce_norm p b B s S A : p_buffer p = b :: B -> p_stack p = s :: S -> p_arcs p = A ->
    exists p', p_reduce p = Ok p' /\ (p_stack p', p_buffer p') = norm S (b :: B) /\ p_arcs p' = A /\ p_deps p' = p_deps p.
  Proof.
    intros EB ES EA. unfold p_reduce. rewrite ES, EB. destruct S as [|s2 S]; unfold p_shift; cbn; eexists; (split; [reflexivity|]); cbn; auto.
  Qed.

  Lemma oracle_sim fuel : forall S B A p, oinv S B A -> (p_stack p, p_buffer p) = norm S B -> p_arcs p = A -> p_deps p = deps ->
    2 * length B + length S <= fuel ->
    exists out p', oracle_loop fuel T S B = Ok out /\ follows p out p' /\ p_complete p' = true /\ p_deps p' = deps /\
      NoDup (map ends (p_arcs p')) /\ (forall a, In a (p_arcs p') <-> In a G).
  Proof.
    induction fuel as [|f IH]; intros S B A p HO EN EA ED HF.
    - destruct B; [|cbn in HF; lia]. destruct S; [|cbn in HF; lia]. exists [], p. cbn [oracle_loop]. split; [reflexivity|]. split; [constructor|].
      cbn in EN. injection EN as ES EB. split; [unfold p_complete; rewrite EB; reflexivity|]. split; [exact ED|]. rewrite EA.
      split; [apply (c_pairs _ _ _ _ (o_core _ _ _ HO))|]. intros a. split; [apply (o_sub _ _ _ HO)|]. intros Ha. destruct (o_pend _ _ _ HO a Ha) as [H|[[] _]]. exact H.
    - cbn [oracle_loop]. destruct B as [|b B].
      { exists [], p. split; [reflexivity|]. split; [constructor|].
        assert (EB : p_buffer p = []) by (destruct S; cbn in EN; congruence).
        split; [unfold p_complete; rewrite EB; reflexivity|]. split; [exact ED|]. rewrite EA.
        split; [apply (c_pairs _ _ _ _ (o_core _ _ _ HO))|]. intros a. split; [apply (o_sub _ _ _ HO)|]. intros Ha. destruct (o_pend _ _ _ HO a Ha) as [H|[[] _]]. exact H. }
      destruct S as [|s S].
      { apply (IH [b] B A p); [apply step_first; exact HO| |exact EA|exact ED|cbn in *; lia]. rewrite EN. reflexivity. }
      cbn [norm] in EN. injection EN as ES EB.
      assert (Est : stack_top p = Ok s) by (unfold stack_top; rewrite ES; reflexivity).
      assert (Ebf : buffer_first p = Ok b) by (unfold buffer_first; rewrite EB; reflexivity).
      destruct (l_is_parent T b s) eqn:E1.
      { apply is_parent_spec in E1. destruct E1 as [l Hl].
        set (q := set_state p (p_buffer p) (p_stack p) (p_arcs p ++ [(l, b, s)])).
        destruct (reduce_norm q b B s S (A ++ [(l, b, s)])) as (p' & Er & En & Ea & Ed); [exact EB|exact ES|unfold q; cbn; rewrite EA; reflexivity|].
        destruct (IH S (b :: B) (A ++ [(l, b, s)]) p') as (out & p'' & Eo & Hf & Hrest); [apply step_left; assumption|exact En|exact Ea|rewrite Ed; exact ED|cbn in *; lia|].
        rewrite Eo. cbn [rbind]. exists ((s, b, LEFT) :: out), p''. split; [reflexivity|]. split; [|exact Hrest].
        econstructor; [exact Est|exact Ebf| |exact Hf]. unfold register_transition. rewrite Est. cbn [rbind]. rewrite (pdep_gold p l b s ED Hl). cbn [rbind].
        rewrite Ebf. cbn [rbind]. exact Er. }
      assert (N1 : forall l, ~ In (l, b, s) G) by (intros l Hl; rewrite (proj2 (is_parent_spec b s)) in E1; [discriminate|eauto]).
      destruct (l_is_parent T s b) eqn:E2.
      { apply is_parent_spec in E2. destruct E2 as [l Hl].
        set (q := set_state p B (b :: s :: S) (p_arcs p ++ [(l, s, b)])).
        destruct (IH (b :: s :: S) B (A ++ [(l, s, b)]) q) as (out & p'' & Eo & Hf & Hrest); [apply step_right; assumption|reflexivity|unfold q; cbn; rewrite EA; reflexivity|exact ED|cbn in *; lia|].
        rewrite Eo. cbn [rbind]. exists ((s, b, RIGHT) :: out), p''. split; [reflexivity|]. split; [|exact Hrest].
        econstructor; [exact Est|exact Ebf| |exact Hf]. unfold register_transition. rewrite Ebf. cbn [rbind]. rewrite (pdep_gold p l s b ED Hl). cbn [rbind].
        rewrite Est. cbn [rbind]. unfold p_shift. cbn [set_state p_buffer p_stack p_arcs]. rewrite EB, ES. reflexivity. }
      assert (N2 : forall l, ~ In (l, s, b) G) by (intros l Hl; rewrite (proj2 (is_parent_spec s b)) in E2; [discriminate|eauto]).
      destruct (has_arc_before T b s) eqn:E3.
      { apply arc_before_spec in E3.
        destruct (reduce_norm p b B s S A EB ES EA) as (p' & Er & En & Ea & Ed).
        destruct (IH S (b :: B) A p') as (out & p'' & Eo & Hf & Hrest); [eapply step_reduce; eauto|exact En|exact Ea|rewrite Ed; exact ED|cbn in *; lia|].
        rewrite Eo. cbn [rbind]. exists ((s, b, REDUCE) :: out), p''. split; [reflexivity|]. split; [|exact Hrest].
        econstructor; [exact Est|exact Ebf|exact Er|exact Hf]. }
      assert (N3 : ~ exists l x, x < s /\ (In (l, x, b) G \/ In (l, b, x) G)) by (intros H; apply arc_before_spec in H; congruence).
      set (q := set_state p B (b :: s :: S) (p_arcs p)).
      destruct (IH (b :: s :: S) B A q) as (out & p'' & Eo & Hf & Hrest); [apply step_shift; assumption|reflexivity|exact EA|exact ED|cbn in *; lia|].
      rewrite Eo. cbn [rbind]. exists ((s, b, SHIFT) :: out), p''. split; [reflexivity|]. split; [|exact Hrest].
      econstructor; [exact Est|exact Ebf| |exact Hf]. unfold register_transition, p_shift. rewrite EB, ES. reflexivity.
  Qed.
End Gold.

(** * From token tuples to gold arcs *)
Definition gold_of (it : nat * token_tuple) : list arc :=
  let '(c, tu) := it in
  if negb (dep_in (tt_dep tu) [ROOT; NODEP]) && (-1 <? tt_parent tu)%Z then [(tt_dep tu, Z.to_nat (tt_parent tu), c)] else [].
Definition gold (tuples : list token_tuple) : list arc := flat_map gold_of (enumerate tuples).

Lemma gold_In tuples a : In a (gold tuples) <-> labelled_arc tuples a.
Proof.
  unfold gold. rewrite in_flat_map. split.
  - intros ([c tu] & Hin & H). apply enum_from_In in Hin. destruct Hin as [_ Hin]. rewrite Nat.sub_0_r in Hin. unfold gold_of in H.
    destruct (dep_in (tt_dep tu) [ROOT; NODEP]) eqn:E; cbn in H; [destruct H|].
    destruct (Z.ltb_spec (-1) (tt_parent tu)) as [Hp|Hp]; [|destruct H]. destruct H as [<-|[]]. exists tu. cbn.
    assert (~ In (tt_dep tu) [ROOT; NODEP]) as Hn by (intros Hn; apply dep_in_In in Hn; congruence). cbn in Hn.
    repeat split; auto; lia.
  - destruct a as [[l p] c]. intros (tu & E & Hl & Hp & H1 & H2). cbn in E, Hl, Hp. exists (c, tu). split.
    + apply enum_from_In. split; [lia|]. rewrite Nat.sub_0_r. exact E.
    + unfold gold_of. destruct (dep_in (tt_dep tu) [ROOT; NODEP]) eqn:Ed.
      * apply dep_in_In in Ed. cbn in Ed. destruct Ed as [Ed|[Ed|[]]]; congruence.
      * cbn. destruct (Z.ltb_spec (-1) (tt_parent tu)); [|lia]. left. rewrite Hl, Hp, Nat2Z.id. reflexivity.
Qed.
Lemma path_dominates tuples x y : path (gold tuples) x y <-> dominates tuples x y.
Proof.
  split; induction 1 as [l a b H|l a b c H _ IH].
  - apply gold_In in H. eapply dom_one; eauto.
  - apply gold_In in H. eapply dom_more; eauto.
  - eapply path_one. apply gold_In. eauto.
  - eapply path_more; [apply gold_In; eauto|exact IH].
Qed.
Lemma valid_idxs_spec deps : valid_idxs deps = in_tree deps.
Proof.
  unfold valid_idxs, in_tree, enumerate.
  assert (G : forall d k, map fst (filter (fun '(_, d) => negb (dep_eqb d NODEP)) (enum_from k d)) =
     filter (fun i => match nth_error d (i - k) with Some d => negb (dep_eqb d NODEP) | None => false end) (seq k (length d))).
  { induction d as [|x d IH]; intros k; cbn [enum_from filter length seq map]; [reflexivity|]. rewrite Nat.sub_diag. cbn [nth_error].
    assert (E : filter (fun i => match nth_error (x :: d) (i - k) with Some d0 => negb (dep_eqb d0 NODEP) | None => false end) (seq (S k) (length d)) =
                filter (fun i => match nth_error d (i - S k) with Some d0 => negb (dep_eqb d0 NODEP) | None => false end) (seq (S k) (length d))).
    { apply filter_ext_in. intros i Hi. apply in_seq in Hi. replace (i - k) with (S (i - S k)) by lia. reflexivity. }
    rewrite E, <- IH. destruct (negb (dep_eqb x NODEP)); reflexivity. }
  rewrite G. apply filter_ext. intros i. rewrite Nat.sub_0_r. reflexivity.
Qed.
Lemma in_tree_valid tuples i : In i (in_tree (map tt_dep tuples)) <-> valid tuples i.
Proof.
  rewrite in_tree_In. unfold valid. split.
  - intros (d & E & Hd). rewrite nth_error_map in E. destruct (nth_error tuples i) as [t|]; [|discriminate]. injection E as <-. eauto.
  - intros (t & E & Hd). exists (tt_dep t). rewrite nth_error_map, E. auto.
Qed.
Lemma foldM_gold its t0 : foldM (fun tr '(child_idx, tu) =>
      if negb (dep_in (tt_dep tu) [ROOT; NODEP]) && (-1 <? tt_parent tu)%Z
      then register_child tr (tt_dep tu) (Z.to_nat (tt_parent tu)) child_idx else Ok tr) t0 its =
  foldM (fun t '(l, p, c) => register_child t l p c) t0 (flat_map gold_of its).
Proof.
  revert t0; induction its as [|[c tu] its IH]; intros t0; cbn [foldM flat_map]; [reflexivity|].
  rewrite foldM_app. unfold gold_of at 1. destruct (negb (dep_in (tt_dep tu) [ROOT; NODEP]) && (-1 <? tt_parent tu)%Z); cbn [foldM rbind].
  - destruct (register_child t0 (tt_dep tu) (Z.to_nat (tt_parent tu)) c); cbn [rbind]; [apply IH|reflexivity].
  - apply IH.
Qed.

Section Sentence.
  Context (tuples : list token_tuple).
  Hypothesis HP : projective_tree tuples.
  Notation G := (gold tuples).
  Notation W := (in_tree (map tt_dep tuples)).

  Lemma G_acyclic : acyclic G.
  Proof. intros x H. apply path_dominates in H. exact (no_cycle _ HP x H). Qed.
  Lemma G_no_loop : no_loop G.
  Proof. apply Forall_forall. intros [[l p] c] H. cbn. intros ->. apply (G_acyclic c). eapply path_one; eauto. Qed.
  Lemma G_fun l p c l' p' : In (l, p, c) G -> In (l', p', c) G -> l' = l /\ p' = p.
  Proof.
    intros H1 H2. apply gold_In in H1. apply gold_In in H2. destruct H1 as (t & E & H1 & H1' & _). destruct H2 as (t' & E' & H2 & H2' & _). cbn in *.
    rewrite E in E'. injection E' as <-. split; [congruence|]. lia.
  Qed.
  Lemma G_W l p c : In (l, p, c) G -> In p W /\ In c W.
  Proof.
    intros H. apply gold_In in H. destruct H as (t & E & H1 & H2 & H3 & H4). cbn in *. split; apply in_tree_valid.
    - destruct (has_head _ HP c t E H4 H3) as (p' & Ep & Hv). assert (p' = p) by lia. subst. exact Hv.
    - exists t. auto.
  Qed.
  Lemma G_proj l p c k : In (l, p, c) G -> In k W -> Nat.min p c < k < Nat.max p c -> path G p k.
  Proof.
    intros H1 H2 H3. apply path_dominates. eapply projective; eauto; [apply gold_In; exact H1|apply in_tree_valid; exact H2].
  Qed.
  Lemma G_lab l p c : In (l, p, c) G -> nth_error (map tt_dep tuples) c = Some l /\ l <> ROOT.
  Proof.
    intros H. apply gold_In in H. destruct H as (t & E & H1 & H2 & H3 & H4). cbn in *. rewrite nth_error_map, E. cbn. split; congruence.
  Qed.
  Lemma G_root r t : nth_error tuples r = Some t -> tt_dep t = ROOT -> forall x, In x W -> x <> r -> In x (map a_child G).
  Proof.
    intros Er Ed x Hx Hne. apply in_tree_valid in Hx. destruct Hx as (tx & Ex & Hx).
    destruct (one_root _ HP) as (r0 & t0 & E0 & D0 & Hu). pose proof (Hu r t Er Ed). subst r0.
    assert (tt_dep tx <> ROOT) by (intros E; apply Hne; eapply Hu; eauto).
    destruct (has_head _ HP x tx Ex Hx H) as (p & Ep & _). apply in_map_iff. exists (tt_dep tx, p, x). split; [reflexivity|]. apply gold_In. exists tx. auto.
  Qed.
  Lemma G_root_free r t l p : nth_error tuples r = Some t -> tt_dep t = ROOT -> ~ In (l, p, r) G.
  Proof. intros Er Ed H. apply gold_In in H. destruct H as (t' & E & _ & _ & H & _). cbn in E. congruence. Qed.

  Lemma find_root r t : nth_error tuples r = Some t -> tt_dep t = ROOT ->
    find (fun '(_, t) => dep_eqb (tt_dep t) ROOT) (enumerate tuples) = Some (r, t).
  Proof.
    intros Er Ed. destruct (find _ (enumerate tuples)) as [[r' t']|] eqn:E.
    - apply find_some in E. destruct E as [Hin E]. apply dep_eqb_ok in E. apply enum_from_In in Hin. destruct Hin as [_ Hin]. rewrite Nat.sub_0_r in Hin.
      destruct (one_root _ HP) as (r0 & t0 & E0 & D0 & Hu). pose proof (Hu _ _ Er Ed). pose proof (Hu _ _ Hin E). subst. rewrite Er in Hin. congruence.
    - exfalso. eapply find_none in E; [|apply enum_from_In; split; [apply Nat.le_0_l|rewrite Nat.sub_0_r; exact Er]]. cbn in E. rewrite Ed in E. discriminate.
  Qed.
  Lemma make_labelled_ok : exists r t, nth_error tuples r = Some t /\ tt_dep t = ROOT /\
    make_labelled tuples = Ok {| l_tokens := map tt_token tuples; l_tags := map tt_tag tuples; l_deps := map tt_dep tuples; l_tree := Some (tree_of r G) |}.
  Proof.
    destruct (one_root _ HP) as (r & t & Er & Ed & Hu). exists r, t. split; [exact Er|]. split; [exact Ed|].
    unfold make_labelled. rewrite (find_root r t Er Ed). rewrite foldM_gold.
    change (foldM (fun t0 '(l, p, c) => register_child t0 l p c) (new_tree r) (flat_map gold_of (enumerate tuples))) with (build r G).
    rewrite build_ok by apply G_no_loop. reflexivity.
  Qed.

  Lemma G_pending_start : pending G [] W [].
  Proof.
    intros [[l p] c] Ha. right. destruct (G_W _ _ _ Ha) as [H1 H2]. unfold lo, hi. cbn.
    destruct (Nat.max_spec p c) as [[_ ->]|[_ ->]]; destruct (Nat.min_spec p c) as [[_ ->]|[_ ->]]; auto.
  Qed.

  Lemma oracle_rebuilds l p0 : make_labelled tuples = Ok l -> inv W p0 -> p_deps p0 = map tt_dep tuples -> p_arcs p0 = [] ->
    rev (p_stack p0) ++ p_buffer p0 = W -> length (p_stack p0) = Nat.min 1 (length W) ->
    exists out p, transitions l = Ok out /\ follows p0 out p /\ p_complete p = true /\ p_deps p = map tt_dep tuples /\
      NoDup (map ends (p_arcs p)) /\ (forall a, In a (p_arcs p) <-> In a G).
  Proof.
    intros El Hi Ed Ea EW ES. destruct make_labelled_ok as (r & t & Er & Etr & Em). rewrite Em in El. injection El as <-.
    unfold transitions. cbn [l_tree l_deps]. rewrite valid_idxs_spec.
    destruct W as [|w ws] eqn:EWW.
    { exfalso. assert (In r W) by (apply in_tree_valid; exists t; split; [exact Er|congruence]). rewrite EWW in H. destruct H. }
    cbn [length Nat.min] in ES. destruct (p_stack p0) as [|s [|? ?]] eqn:Es; try discriminate ES. cbn in EW. injection EW as -> EB.
    assert (HO : oinv W G [w] ws []).
    { eapply step_first; [exact G_acyclic|]. constructor.
      - constructor; [constructor|rewrite <- EWW; apply in_tree_sorted|intros s b []|intros x []|rewrite EWW; intros x Hx; exact Hx|intros ? ? ? []| |intros ? ? []|constructor].
        intros x Hp. apply path_last in Hp. destruct Hp as (? & ? & []).
      - rewrite <- EWW. apply G_pending_start.
      - intros x []. }
    destruct (oracle_sim W G r (map tt_dep tuples) G_acyclic G_fun G_proj G_W G_lab (2 * length (w :: ws)) [w] ws [] p0) as (out & p & Eo & Hf & Hc & Hd & Hn & Ha);
      [exact HO|rewrite Es, EB; reflexivity|exact Ea|exact Ed|cbn; lia|].
    exists out, p. split; [exact Eo|]. auto.
  Qed.
  (** the tree built from the gold arcs in any order *)
  Lemma same_tree A r t : nth_error tuples r = Some t -> tt_dep t = ROOT -> (forall a, In a A <-> In a G) ->
    forall p, p_arcs p = A -> A <> [] ->
    p_root p = Some r /\ forall x, last_reg A x = last_reg G x.
  Proof.
    intros Er Ed HA p EA Hne. split.
    - pose proof (p_root_spec p) as H. rewrite EA in H. destruct (p_root p) as [r'|].
      + destruct H as ((a & Ha & Hend) & Hn & _). f_equal. destruct (Nat.eq_dec r' r) as [|Hd]; [assumption|]. exfalso. apply Hn.
        apply HA in Ha. destruct a as [[la pa] ca]. destruct (G_W _ _ _ Ha) as [H1 H2]. cbn in Hend.
        assert (Hc : In r' (map a_child G)) by (apply (G_root r t Er Ed); [destruct Hend; subst; assumption|exact Hd]).
        apply in_map_iff in Hc. destruct Hc as (a & E & Hin). apply in_map_iff. exists a. split; [exact E|]. apply HA. exact Hin.
      + exfalso. assert (Hac : acyclic A).
        { intros x Hx. apply (G_acyclic x). clear - Hx HA. assert (K : forall y, path A x y -> path G x y); [|auto].
          intros y Hy. clear Hx. induction Hy; [eapply path_one|eapply path_more]; eauto; apply HA; eauto. }
        rewrite <- EA in Hac. destruct (p_root_None p Hac) as [Hr _].
        destruct A as [|[[l q] c] A]; [congruence|]. destruct (source_above _ Hac q) as (z & Hz & Hzn). rewrite EA in *.
        apply Hzn. destruct Hz as [->|Hz]; [apply (H (l, q, c)); left; reflexivity|].
        assert (exists l' y, In (l', z, y) ((l, q, c) :: A)) as (l' & y & Hin) by (inversion Hz; eauto). apply (H _ Hin).
    - intros x. destruct (last_reg G x) as [[l q]|] eqn:E.
      + apply last_reg_In in E. apply last_reg_unique; [|apply HA; exact E]. intros l' p' H'. apply HA in H'. eapply G_fun; eauto.
      + apply last_reg_None in E. apply last_reg_None. intros H. apply E. apply in_map_iff in H. destruct H as (a & Ea & H). apply in_map_iff. exists a. split; [exact Ea|]. apply HA. exact H.
  Qed.
End Sentence.

(** * The crossing test *)
Lemma crossing_spec a1 b1 a2 b2 :
  arcs_are_crossing (a1, b1) (a2, b2) = true <->
  (Nat.min a1 b1 < Nat.min a2 b2 < Nat.max a1 b1 /\ Nat.max a1 b1 < Nat.max a2 b2) \/
  (Nat.min a2 b2 < Nat.min a1 b1 < Nat.max a2 b2 /\ Nat.max a2 b2 < Nat.max a1 b1).
Proof.
  unfold arcs_are_crossing, sort2. cbn [fst snd].
  assert (Hs : forall x y, (if y <? x then (y, x) else (x, y)) = (Nat.min x y, Nat.max x y)).
  { intros x y. destruct (Nat.ltb_spec y x); f_equal; lia. }
  rewrite !Hs. generalize (Nat.min a1 b1) (Nat.max a1 b1) (Nat.min a2 b2) (Nat.max a2 b2). intros x y z w.
  unfold pair_lt. cbn [fst snd]. destruct ((z <? x) || ((z =? x) && (w <? y))) eqn:E; cbn [fst snd]; rewrite !andb_true_iff, !Nat.ltb_lt.
  - rewrite orb_true_iff, andb_true_iff, !Nat.ltb_lt, Nat.eqb_eq in E. lia.
  - rewrite orb_false_iff, andb_false_iff, !Nat.ltb_ge, Nat.eqb_neq in E. lia.
Qed.

(** * A planar tree in which no arc spans the root is projective *)
Lemma rooted_labelled tuples r tr : nth_error tuples r = Some tr -> tt_dep tr = ROOT ->
  (forall r' t', nth_error tuples r' = Some t' -> tt_dep t' = ROOT -> r' = r) -> no_loop (gold tuples) ->
  make_labelled tuples = Ok {| l_tokens := map tt_token tuples; l_tags := map tt_tag tuples; l_deps := map tt_dep tuples; l_tree := Some (tree_of r (gold tuples)) |}.
  Proof.
    intros Er Etr Hu NL. unfold make_labelled.
    assert (EF : find (fun '(_, t) => dep_eqb (tt_dep t) ROOT) (enumerate tuples) = Some (r, tr)).
    { destruct (find _ (enumerate tuples)) as [[r' t']|] eqn:E.
      - apply find_some in E. destruct E as [Hin E]. apply dep_eqb_ok in E. apply enum_from_In in Hin. destruct Hin as [_ Hin]. rewrite Nat.sub_0_r in Hin.
        pose proof (Hu _ _ Hin E). subst. rewrite Er in Hin. congruence.
      - exfalso. eapply find_none in E; [|apply enum_from_In; split; [apply Nat.le_0_l|rewrite Nat.sub_0_r; exact Er]]. cbn in E. rewrite Etr in E. discriminate. }
    rewrite EF. rewrite foldM_gold.
    change (foldM (fun t0 '(l, p, c) => register_child t0 l p c) (new_tree r) (flat_map gold_of (enumerate tuples))) with (build r (gold tuples)).
    rewrite build_ok by exact NL. reflexivity.
  Qed.

Section Planar.
  Context (tuples : list token_tuple) (r : nat) (tr : token_tuple).
  Hypothesis Er : nth_error tuples r = Some tr.
  Hypothesis Etr : tt_dep tr = ROOT.
  Hypothesis Hu : forall r' t', nth_error tuples r' = Some t' -> tt_dep t' = ROOT -> r' = r.
  Hypothesis Hh : forall i t, nth_error tuples i = Some t -> tt_dep t <> NODEP -> tt_dep t <> ROOT -> exists p, tt_parent t = Z.of_nat p /\ valid tuples p.
  Hypothesis Hcy : forall i, ~ dominates tuples i i.
  Hypothesis Hx : forall gold l c1 c2, make_labelled tuples = Ok l -> l_tree l = Some gold -> valid tuples c1 -> valid tuples c2 -> have_crossing_arcs gold c1 c2 = Ok false.
  Hypothesis Hsp : forall a, labelled_arc tuples a -> ~ (lo a < r < hi a).

  Lemma planar_nl : no_loop (gold tuples).
  Proof.
    apply Forall_forall. intros [[l p] c] H. cbn. intros ->. apply gold_In in H. apply (Hcy c). eapply dom_one; eauto.
  Qed.
  Lemma planar_labelled : make_labelled tuples = Ok {| l_tokens := map tt_token tuples; l_tags := map tt_tag tuples; l_deps := map tt_dep tuples; l_tree := Some (tree_of r (gold tuples)) |}.
  Proof. apply rooted_labelled with tr; auto using planar_nl. Qed.
  Lemma planar_fun l p c l' p' : In (l, p, c) (gold tuples) -> In (l', p', c) (gold tuples) -> l' = l /\ p' = p.
  Proof.
    intros H1 H2. apply gold_In in H1. apply gold_In in H2. destruct H1 as (t & E & H1 & H1' & _). destruct H2 as (t' & E' & H2 & H2' & _). cbn in *.
    rewrite E in E'. injection E' as <-. split; [congruence|]. lia.
  Qed.
  Lemma planar_not_root l p c : In (l, p, c) (gold tuples) -> c <> r /\ valid tuples c.
  Proof.
    intros H. apply gold_In in H. destruct H as (t & E & H1 & H2 & H3 & H4). cbn in *. split; [intros ->; congruence|]. exists t. auto.
  Qed.
  Lemma planar_nc a b : In a (gold tuples) -> In b (gold tuples) -> ~ crossing a b.
  Proof.
    intros Ha Hb HC. destruct a as [[la pa] ca]. destruct b as [[lb pb] cb].
    destruct (planar_not_root _ _ _ Ha) as [Na Va]. destruct (planar_not_root _ _ _ Hb) as [Nb Vb].
    pose proof (Hx _ _ ca cb planar_labelled eq_refl Va Vb) as E. unfold have_crossing_arcs in E. rewrite tree_of_root, !tree_parent in E.
    apply Nat.eqb_neq in Na. apply Nat.eqb_neq in Nb. rewrite Na, Nb in E. cbn [orb] in E.
    rewrite (last_reg_unique _ ca la pa) in E; [|intros ? ? H; eapply planar_fun; eauto|exact Ha].
    rewrite (last_reg_unique _ cb lb pb) in E; [|intros ? ? H; eapply planar_fun; eauto|exact Hb].
    cbn [of_option rbind snd] in E. injection E as E.
    assert (arcs_are_crossing (pa, ca) (pb, cb) = true); [|congruence].
    apply crossing_spec. left. exact HC.
  Qed.
  Lemma planar_projective : projective_tree tuples.
  Proof.
    constructor; auto; [exists r, tr; auto|].
    assert (Hac : acyclic (gold tuples)) by (intros x H; apply path_dominates in H; exact (Hcy x H)).
    intros l p c k Ha Hv Hk. apply gold_In in Ha. apply path_dominates.
    destruct (source_above (gold tuples) Hac k) as (r' & Hr' & Hn).
    assert (Hin : Nat.min p c < r' < Nat.max p c -> False).
    { intros Hr''. assert (Hvr : valid tuples r').
      { destruct Hr' as [->|Hr']; [exact Hv|]. inversion Hr' as [l0 x y Hl0|l0 x y z Hl0]; subst; apply gold_In in Hl0; destruct Hl0 as (t & E & H1 & H2 & H3 & H4); cbn in *;
          destruct (Hh _ _ E H4 H3) as (q & Eq & Hq); assert (q = r') by lia; subst; exact Hq. }
      destruct Hvr as (t & Et & Hnd).
      assert (r' = r).
      { destruct (dep_eq_dec (tt_dep t) ROOT) as [Ed|Ed]; [eapply Hu; eauto|]. exfalso. apply Hn.
        destruct (Hh _ _ Et Hnd Ed) as (q & Eq & _). apply in_map_iff. exists (tt_dep t, q, r'). split; [reflexivity|]. apply gold_In. exists t. auto. }
      subst r'. apply gold_In in Ha. apply (Hsp _ Ha). unfold lo, hi. cbn. exact Hr''. }
    destruct Hr' as [->|Hr']; [exfalso; apply Hin; exact Hk|].
    clear Hn. induction Hr' as [l0 x y Hl0|l0 x z y Hl0 Hp IH].
    - assert (x = p \/ x = c).
      { pose proof (planar_nc _ _ Ha Hl0) as N1. pose proof (planar_nc _ _ Hl0 Ha) as N2. unfold crossing, lo, hi in N1, N2. cbn in N1, N2. lia. }
      destruct H as [->| ->]; [eapply path_one; eauto|]. eapply path_more; [exact Ha|]. eapply path_one; eauto.
    - destruct (Nat.lt_ge_cases (Nat.min p c) z) as [Z1|Z1]; [destruct (Nat.lt_ge_cases z (Nat.max p c)) as [Z2|Z2]|].
      + assert (x = p \/ x = c).
        { pose proof (planar_nc _ _ Ha Hl0) as N1. pose proof (planar_nc _ _ Hl0 Ha) as N2. unfold crossing, lo, hi in N1, N2. cbn in N1, N2. lia. }
        destruct H as [->| ->]; [eapply path_more; eauto|]. eapply path_more; [exact Ha|]. eapply path_more; eauto.
      + apply IH; [exact Hv|exact Hk|]. lia.
      + apply IH; [exact Hv|exact Hk|]. lia.
  Qed.
End Planar.
