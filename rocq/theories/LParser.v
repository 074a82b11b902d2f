(** Proofs about syntax/parser.py: the transition system under arbitrary predictions. *)
From Coq Require Import List NArith ZArith Arith Bool Lia Sorted.
From Verif Require Import PyBase Regex MUtils MTree MVector MParser SUtils STree SParser LBase LText LTree.
Import ListNotations.
Local Open Scope nat_scope.

(** * Graph lemmas *)
Lemma path_snoc A d p c x y : path (A ++ [(d, p, c)]) x y ->
  path A x y \/ ((x = p \/ path A x p) /\ (c = y \/ path A c y)).
Proof.
  induction 1 as [l a b Hin|l a b y Hin Hp IH].
  - apply in_app_iff in Hin. destruct Hin as [Hin|[E|[]]].
    + left. eapply path_one; eauto.
    + injection E as _ -> ->. right. auto.
  - apply in_app_iff in Hin. destruct Hin as [Hin|[E|[]]].
    + destruct IH as [IH|[[->|IH1] IH2]].
      * left. eapply path_more; eauto.
      * right. split; [right; eapply path_one; eauto|exact IH2].
      * right. split; [right; eapply path_more; eauto|exact IH2].
    + injection E as _ -> ->. right. split; [left; reflexivity|]. destruct IH as [IH|[_ IH2]]; auto.
Qed.
Lemma acyclic_add A d p c : acyclic A -> p <> c -> ~ path A c p -> acyclic (A ++ [(d, p, c)]).
Proof.
  intros Hac Hne Hnp x Hx. apply path_snoc in Hx. destruct Hx as [Hx|[[->|H1] [->|H2]]].
  - exact (Hac x Hx).
  - congruence.
  - exact (Hnp H2).
  - exact (Hnp H1).
  - apply Hnp. eapply path_trans; eauto.
Qed.
Lemma path_last A x y : path A x y -> exists l z, In (l, z, y) A.
Proof. induction 1; eauto. Qed.

(** an acyclic set of arcs has a source above every node *)
Lemma source_above A : acyclic A -> forall x, exists r, (r = x \/ path A r x) /\ ~ In r (map a_child A).
Proof.
  intros Hac. set (keys := firsts Nat.eqb (map a_child A)).
  assert (G : forall fuel x seen, NoDup seen -> incl seen keys -> (forall y, In y seen -> path A x y) ->
              length keys <= fuel + length seen -> exists r, (r = x \/ path A r x) /\ ~ In r (map a_child A)).
  { induction fuel as [|f IH]; intros x seen Hnd Hin Hp Hl;
      (destruct (in_dec Nat.eq_dec x (map a_child A)) as [Hx|Hx]; [|exists x; auto]).
    - exfalso. assert (NoDup (x :: seen)) by (constructor; [intros H; exact (Hac x (Hp _ H))|assumption]).
      assert (incl (x :: seen) keys) by (intros y [<-|Hy]; [apply (proj2 (In_firsts _ nat_eqb_ok _ _)); exact Hx|auto]).
      pose proof (NoDup_incl_length H H0). cbn [length] in *. lia.
    - apply in_map_iff in Hx. destruct Hx as ([[l p] c] & E & Hx). cbn in E. subst c.
      destruct (IH p (x :: seen)) as (r & Hr & Hn).
      + constructor; [intros H; exact (Hac x (Hp _ H))|assumption].
      + intros y [<-|Hy]; [|auto]. apply (proj2 (In_firsts _ nat_eqb_ok _ _)). apply (in_map a_child) in Hx. exact Hx.
      + intros y [<-|Hy]; [eapply path_one; eauto|]. eapply path_more; eauto.
      + cbn [length]. lia.
      + exists r. split; [|exact Hn]. right. destruct Hr as [->|Hr]; [eapply path_one; eauto|].
        eapply path_trans; [exact Hr|]. eapply path_one; eauto. }
  intros x. apply (G (length keys) x []); [constructor|intros y []|intros y []|cbn; lia].
Qed.

(** * The invariant *)
Definition ends (a : arc) : nat * nat := (lo a, hi a).
Record core (W S B : list nat) (A : list arc) : Prop := {
  c_S : StronglySorted gt S;
  c_B : StronglySorted lt B;
  c_SB : forall s b, In s S -> In b B -> s < b;
  c_SW : incl S W;
  c_BW : incl B W;
  c_arc : forall l p c, In (l, p, c) A ->
    p <> c /\ In p W /\ In c W /\ l <> ROOT /\
    (forall y, In y B -> p <= y /\ c < y) /\
    (In c S -> In p S /\ p < c) /\
    (forall k, Nat.min p c < k < Nat.max p c -> ~ In k S /\ ~ In k B) /\
    (In p B -> ~ In c S);
  c_acyclic : acyclic A;
  c_planar : non_crossing A;
  c_pairs : NoDup (map ends A)
}.

Lemma SS_gt_head (x : nat) l y : StronglySorted gt (x :: l) -> In y l -> y < x.
Proof. intros H Hy. inversion H; subst. rewrite Forall_forall in H3. apply H3 in Hy. lia. Qed.
Lemma SS_lt_head (x : nat) l y : StronglySorted lt (x :: l) -> In y l -> x < y.
Proof. intros H Hy. inversion H; subst. rewrite Forall_forall in H3. apply H3 in Hy. lia. Qed.

Lemma core_pop W s S B A : core W (s :: S) B A -> core W S B A.
Proof.
  intros [H1 H2 H3 H4 H5 H6 H7 H8 H9]. constructor; auto.
  - inversion H1; assumption.
  - intros x y Hx Hy. apply H3; [right|]; assumption.
  - intros x Hx. apply H4. right. exact Hx.
  - intros l p c Hin. destruct (H6 l p c Hin) as (A1 & A2 & A3 & A4 & A5 & A6 & A7 & A8).
    repeat (split; [assumption|]). split; [|split].
    + intros Hc. destruct (A6 (or_intror Hc)) as [[->|Hp] Hlt]; [|auto].
      exfalso. pose proof (SS_gt_head _ _ _ H1 Hc). lia.
    + intros k Hk. destruct (A7 k Hk) as [K1 K2]. split; [|exact K2]. intros K3. apply K1. right. exact K3.
    + intros Hp Hc. apply (A8 Hp). right. exact Hc.
Qed.
Lemma core_shift W S b B A : core W S (b :: B) A -> core W (b :: S) B A.
Proof.
  intros [H1 H2 H3 H4 H5 H6 H7 H8 H9].
  assert (Hb : ~ In b B) by (intros Hb; pose proof (SS_lt_head _ _ _ H2 Hb); lia).
  constructor; auto.
  - constructor; [exact H1|]. apply Forall_forall. intros x Hx. pose proof (H3 x b Hx (or_introl eq_refl)). lia.
  - inversion H2; assumption.
  - intros x y [<-|Hx] Hy; [exact (SS_lt_head _ _ _ H2 Hy)|]. apply H3; [assumption|right; assumption].
  - intros x [<-|Hx]; [apply H5; left; reflexivity|auto].
  - intros x Hx. apply H5. right. exact Hx.
  - intros l p c Hin. destruct (H6 l p c Hin) as (A1 & A2 & A3 & A4 & A5 & A6 & A7 & A8).
    destruct (A5 b (or_introl eq_refl)) as [P1 P2].
    repeat (split; [assumption|]). split; [|split; [|split]].
    + intros y Hy. apply A5. right. exact Hy.
    + intros [<-|Hc]; [lia|]. destruct (A6 Hc). split; [right; assumption|assumption].
    + intros k Hk. destruct (A7 k Hk) as [K1 K2]. split; [|intros K; apply K2; right; exact K].
      intros [<-|K]; [apply K2; left; reflexivity|exact (K1 K)].
    + intros Hp. exfalso. pose proof (SS_lt_head _ _ _ H2 Hp). lia.
Qed.

(** adding an arc between the top of the stack and the head of the buffer *)
Section AddArc.
  Context (W S B : list nat) (A : list arc) (s b : nat) (d : dep).
  Hypothesis HC : core W (s :: S) (b :: B) A.
  Hypothesis Hd : d <> ROOT.

  Lemma sb_lt : s < b.
  Proof. apply (c_SB _ _ _ _ HC); left; reflexivity. Qed.
  Lemma add_planar a : lo a = s -> hi a = b -> non_crossing (A ++ [a]).
  Proof.
    intros El Eh x y Hx Hy. apply in_app_iff in Hx. apply in_app_iff in Hy.
    destruct Hx as [Hx|[<-|[]]]; destruct Hy as [Hy|[<-|[]]].
    - apply (c_planar _ _ _ _ HC); assumption.
    - unfold crossing. rewrite El, Eh. intros [[C1 C2] C3]. destruct x as [[l p] c].
      destruct (c_arc _ _ _ _ HC l p c Hx) as (_ & _ & _ & _ & _ & _ & A7 & _).
      unfold lo, hi in *. cbn in *. destruct (A7 s ltac:(lia)) as [K _]. apply K. left. reflexivity.
    - unfold crossing. rewrite El, Eh. intros [[C1 C2] C3]. destruct y as [[l p] c].
      destruct (c_arc _ _ _ _ HC l p c Hy) as (_ & _ & _ & _ & A5 & _). destruct (A5 b (or_introl eq_refl)).
      unfold hi in C3. cbn in C3. lia.
    - unfold crossing. lia.
  Qed.
  Lemma add_pairs a : lo a = s -> hi a = b -> NoDup (map ends (A ++ [a])).
  Proof.
    intros El Eh. rewrite map_app. cbn [map]. unfold ends at 2. rewrite El, Eh.
    assert (Hn : ~ In (s, b) (map ends A)).
    { intros H. apply in_map_iff in H. destruct H as ([[l p] c] & E & Hin).
      destruct (c_arc _ _ _ _ HC l p c Hin) as (_ & _ & _ & _ & A5 & _ & _ & A8). destruct (A5 b (or_introl eq_refl)).
      unfold ends, lo, hi in E. cbn in E. injection E as E1 E2. assert (p = b) by lia. assert (c = s) by lia. subst.
      apply A8; left; reflexivity. }
    rewrite <- (rev_involutive (map ends A ++ [(s, b)])). apply NoDup_rev. rewrite rev_app_distr. cbn.
    constructor; [rewrite <- in_rev; exact Hn|]. apply NoDup_rev. apply (c_pairs _ _ _ _ HC).
  Qed.
  Lemma anc_on_stack x y : path A x y -> In y (s :: S) -> In x (s :: S).
  Proof.
    induction 1 as [l x y Hin|l x z y Hin Hp IH]; intros Hy.
    - destruct (c_arc _ _ _ _ HC l x y Hin) as (_ & _ & _ & _ & _ & A6 & _). apply A6. exact Hy.
    - destruct (c_arc _ _ _ _ HC l x z Hin) as (_ & _ & _ & _ & _ & A6 & _). apply A6. apply IH. exact Hy.
  Qed.

  Lemma core_left : core W S (b :: B) (A ++ [(d, b, s)]).
  Proof.
    pose proof sb_lt as Hlt. pose proof (core_pop _ _ _ _ _ HC) as [H1 H2 H3 H4 H5 H6 H7 H8 H9].
    assert (HS : ~ In s S) by (intros H; pose proof (SS_gt_head _ _ _ (c_S _ _ _ _ HC) H); lia).
    constructor; auto.
    - intros l p c Hin. apply in_app_iff in Hin. destruct Hin as [Hin|[E|[]]]; [auto|]. injection E as <- <- <-.
      split; [lia|]. split; [apply H5; left; reflexivity|]. split; [apply (c_SW _ _ _ _ HC); left; reflexivity|]. split; [exact Hd|].
      split; [|split; [|split]].
      + intros y [<-|Hy]; [lia|]. pose proof (SS_lt_head _ _ _ H2 Hy). lia.
      + intros H; contradiction.
      + intros k Hk. split.
        * intros K. pose proof (SS_gt_head _ _ _ (c_S _ _ _ _ HC) K). lia.
        * intros [<-|K]; [lia|]. pose proof (SS_lt_head _ _ _ H2 K). lia.
      + intros _. exact HS.
    - apply acyclic_add; [assumption|lia|]. intros Hp. apply path_last in Hp. destruct Hp as (l & z & Hin).
      destruct (H6 l z b Hin) as (_ & _ & _ & _ & A5 & _). destruct (A5 b (or_introl eq_refl)). lia.
    - apply add_planar; unfold lo, hi; cbn; lia.
    - apply add_pairs; unfold lo, hi; cbn; lia.
  Qed.
  Lemma core_right : core W (b :: s :: S) B (A ++ [(d, s, b)]).
  Proof.
    pose proof sb_lt as Hlt. pose proof (core_shift _ _ _ _ _ HC) as [H1 H2 H3 H4 H5 H6 H7 H8 H9].
    constructor; auto.
    - intros l p c Hin. apply in_app_iff in Hin. destruct Hin as [Hin|[E|[]]]; [auto|]. injection E as <- <- <-.
      split; [lia|]. split; [apply H4; right; left; reflexivity|]. split; [apply H4; left; reflexivity|]. split; [exact Hd|].
      split; [|split; [|split]].
      + intros y Hy. pose proof (SS_lt_head _ _ _ (c_B _ _ _ _ HC) Hy). lia.
      + intros _. split; [right; left; reflexivity|lia].
      + intros k Hk. split.
        * intros [<-|[<-|K]]; [lia|lia|]. pose proof (SS_gt_head _ _ _ (c_S _ _ _ _ HC) K). lia.
        * intros K. pose proof (SS_lt_head _ _ _ (c_B _ _ _ _ HC) K). lia.
      + intros Hs. pose proof (H3 s s ltac:(right; left; reflexivity) Hs). lia.
    - apply acyclic_add; [assumption|lia|]. intros Hp. pose proof (anc_on_stack _ _ Hp (or_introl eq_refl)) as Hb.
      pose proof (c_SB _ _ _ _ HC b b Hb (or_introl eq_refl)). lia.
    - apply add_planar; unfold lo, hi; cbn; lia.
    - apply add_pairs; unfold lo, hi; cbn; lia.
  Qed.
End AddArc.

(** * Runs *)
Definition inv (W : list nat) (p : parse) : Prop :=
  core W (p_stack p) (p_buffer p) (p_arcs p) /\ (p_buffer p <> [] -> p_stack p <> []) /\
  (forall w, In w W -> w < length (p_deps p)).
Definition msr (p : parse) : nat := 2 * length (p_buffer p) + length (p_stack p).

Lemma p_pdep_ok p w : w < length (p_deps p) -> exists d, p_pdep p w = Ok d /\ d <> ROOT /\
  (forall d', nth_error (p_deps p) w = Some d' -> d' <> ROOT -> d = d').
Proof.
  intros H. unfold p_pdep. rewrite index_nat. destruct (nth_error (p_deps p) w) as [d|] eqn:E.
  - cbn [of_option rbind]. eexists. split; [reflexivity|]. split; [destruct d; discriminate|].
    intros d' E' Hd'. injection E' as <-. destruct d; congruence.
  - apply nth_error_None in E. lia.
Qed.
Lemma step_inv W p t : inv W p -> p_complete p = false ->
  exists p', register_transition p t = Ok p' /\ inv W p' /\ msr p' < msr p /\ p_tags p' = p_tags p /\ p_deps p' = p_deps p /\ 1 <= msr p'.
Proof.
  intros (HC & Hne & Hw) Hinc. unfold p_complete in Hinc.
  destruct (p_buffer p) as [|b B] eqn:EB; [discriminate|]. destruct (p_stack p) as [|s S] eqn:ES; [exfalso; apply Hne; [discriminate|reflexivity]|].
  assert (Hs : s < length (p_deps p)) by (apply Hw; apply (c_SW _ _ _ _ HC); left; reflexivity).
  assert (Hb : b < length (p_deps p)) by (apply Hw; apply (c_BW _ _ _ _ HC); left; reflexivity).
  assert (RED : forall A', core W S (b :: B) A' ->
            exists p', p_reduce (set_state p (b :: B) (s :: S) A') = Ok p' /\ inv W p' /\ msr p' < msr p /\ p_tags p' = p_tags p /\ p_deps p' = p_deps p /\ 1 <= msr p').
  { intros A' HC'. unfold p_reduce. cbn [p_stack set_state p_buffer p_arcs]. destruct S as [|s2 S].
    - unfold p_shift. cbn [p_stack set_state p_buffer p_arcs]. eexists. split; [reflexivity|]. split; [|split].
      + split; [apply core_shift; exact HC'|]. split; [discriminate|exact Hw].
      + unfold msr. cbn. rewrite EB, ES. cbn. lia.
      + split; [reflexivity|]. split; [reflexivity|]. unfold msr; cbn; lia.
    - eexists. split; [reflexivity|]. split; [|split].
      + split; [exact HC'|]. split; [discriminate|exact Hw].
      + unfold msr. cbn. rewrite EB, ES. cbn. lia.
      + split; [reflexivity|]. split; [reflexivity|]. unfold msr; cbn; lia. }
  assert (SH : forall A', core W (b :: s :: S) B A' ->
            exists p', p_shift (set_state p (b :: B) (s :: S) A') = Ok p' /\ inv W p' /\ msr p' < msr p /\ p_tags p' = p_tags p /\ p_deps p' = p_deps p /\ 1 <= msr p').
  { intros A' HC'. unfold p_shift. cbn [p_stack set_state p_buffer p_arcs]. eexists. split; [reflexivity|]. split; [|split].
    - split; [exact HC'|]. split; [discriminate|exact Hw].
    - unfold msr. cbn. rewrite EB, ES. cbn. lia.
    - split; [reflexivity|]. split; [reflexivity|]. unfold msr; cbn; lia. }
  assert (EP : p = set_state p (b :: B) (s :: S) (p_arcs p)) by (destruct p; unfold set_state; cbn in *; subst; reflexivity).
  unfold register_transition, stack_top, buffer_first. rewrite EB, ES. destruct t; cbn [rbind].
  - destruct (p_pdep_ok p s Hs) as (d & -> & Hd & _). cbn [rbind]. apply RED. apply core_left; assumption.
  - destruct (p_pdep_ok p b Hb) as (d & -> & Hd & _). cbn [rbind]. apply SH. apply core_right; assumption.
  - specialize (RED (p_arcs p) (core_pop _ _ _ _ _ HC)). rewrite <- EP in RED. exact RED.
  - specialize (SH (p_arcs p) (core_shift _ _ _ _ _ HC)). rewrite <- EP in SH. exact SH.
Qed.

(** * The initial state *)
Lemma seq_sorted_filter f n k : StronglySorted lt (filter f (seq k n)).
Proof.
  revert k; induction n as [|n IH]; intros k; cbn; [constructor|]. destruct (f k); [|apply IH].
  constructor; [apply IH|]. apply Forall_forall. intros x Hx. apply filter_In in Hx. destruct Hx as [Hx _]. apply in_seq in Hx. lia.
Qed.
(** indexes of the tokens that are in the tree *)
Definition in_tree (deps : list dep) : list nat :=
  filter (fun i => match nth_error deps i with Some d => negb (dep_eqb d NODEP) | None => false end) (seq 0 (length deps)).
Lemma in_tree_In deps i : In i (in_tree deps) <-> exists d, nth_error deps i = Some d /\ d <> NODEP.
Proof.
  unfold in_tree. rewrite filter_In, in_seq. split.
  - intros [_ H]. destruct (nth_error deps i) as [d|] eqn:E; [|discriminate]. exists d. split; [reflexivity|].
    intros ->. rewrite (proj2 (dep_eqb_ok NODEP NODEP) eq_refl) in H. discriminate.
  - intros (d & E & Hd). split.
    + pose proof (proj1 (nth_error_Some deps i) ltac:(congruence)). lia.
    + rewrite E. destruct (dep_eqb d NODEP) eqn:E2; [apply dep_eqb_ok in E2; congruence|reflexivity].
Qed.
Lemma in_tree_sorted deps : StronglySorted lt (in_tree deps).
Proof. apply seq_sorted_filter. Qed.

Lemma kept_spec deps n : n <= length deps ->
  mapM (fun idx => let! d := index deps (Z.of_nat idx) in Ok (idx, negb (dep_eqb d NODEP))) (seq 0 n) =
  Ok (map (fun i => (i, match nth_error deps i with Some d => negb (dep_eqb d NODEP) | None => false end)) (seq 0 n)).
Proof.
  intros H. apply mapM_total. intros i Hi. apply in_seq in Hi. rewrite index_nat.
  destruct (nth_error deps i) eqn:E; [reflexivity|]. apply nth_error_None in E. lia.
Qed.
Lemma filter_pairs {X} (f : X -> bool) l : map fst (filter snd (map (fun i => (i, f i)) l)) = filter f l.
Proof. induction l as [|x l IH]; cbn; [reflexivity|]. destruct (f x); cbn; rewrite IH; reflexivity. Qed.

Lemma tag_of_code_ok c : c < 17 -> exists t, tag_of_code c = Ok t.
Proof. intros H. unfold tag_of_code. destruct (nth_error all_tags c) eqn:E; [cbn; eauto|]. apply nth_error_None in E. cbn in E. exfalso; lia. Qed.
Lemma dep_of_code_ok c : c < 25 -> exists t, dep_of_code c = Ok t.
Proof. intros H. unfold dep_of_code. destruct (nth_error all_deps c) eqn:E; [cbn; eauto|]. apply nth_error_None in E. cbn in E. exfalso; lia. Qed.
Lemma mapM_ok_Forall {A B} (f : A -> res B) l : Forall (fun x => exists y, f x = Ok y) l -> exists ys, mapM f l = Ok ys.
Proof.
  induction 1 as [|x l [y Hy] _ [ys IH]]; [exists []; reflexivity|]. cbn. rewrite Hy, IH. cbn. eauto.
Qed.
Lemma slice_codes (codes : list nat) n : length codes = PADDED_SENT_LENGTH -> n <= MAX_SENT_LENGTH ->
  slice (Some 1%Z) (Some (Z.of_nat (n + 2) - 1)%Z) codes = firstn n (skipn 1 codes).
Proof.
  intros Hl Hn. replace (Z.of_nat (n + 2) - 1)%Z with (Z.of_nat (n + 1)) by lia.
  change 1%Z with (Z.of_nat 1). rewrite slice_nat. unfold PADDED_SENT_LENGTH, MAX_SENT_LENGTH in *.
  f_equal. lia.
Qed.

Definition msr0 (m : nat) : nat := 2 * m - 1.
Lemma init_parse_ok n tag_codes dep_codes : n <= MAX_SENT_LENGTH -> codes_ok 17 tag_codes -> codes_ok 25 dep_codes ->
  exists p, init_parse (n + 2) tag_codes dep_codes = Ok p /\
    mapM tag_of_code (firstn n (skipn 1 tag_codes)) = Ok (p_tags p) /\
    mapM dep_of_code (firstn n (skipn 1 dep_codes)) = Ok (p_deps p) /\
    length (p_tags p) = n /\ length (p_deps p) = n /\
    inv (in_tree (p_deps p)) p /\ p_arcs p = [] /\ msr p = msr0 (length (in_tree (p_deps p))) /\
    rev (p_stack p) ++ p_buffer p = in_tree (p_deps p) /\ length (p_stack p) = Nat.min 1 (length (in_tree (p_deps p))).
Proof.
  intros Hn [Ht1 Ht2] [Hd1 Hd2]. unfold init_parse. rewrite !slice_codes by assumption.
  assert (Hsub : forall l : list nat, forall x, In x (firstn n (skipn 1 l)) -> In x l).
  { intros l x Hx. rewrite <- (firstn_skipn 1 l), in_app_iff. right. rewrite <- (firstn_skipn n (skipn 1 l)), in_app_iff. auto. }
  assert (Hlen : forall l : list nat, length l = PADDED_SENT_LENGTH -> length (firstn n (skipn 1 l)) = n).
  { intros l Hl. rewrite firstn_length, skipn_length, Hl. unfold PADDED_SENT_LENGTH, MAX_SENT_LENGTH in *. lia. }
  destruct (mapM_ok_Forall tag_of_code (firstn n (skipn 1 tag_codes))) as [tags Et].
  { apply Forall_forall. intros x Hx. apply tag_of_code_ok. rewrite Forall_forall in Ht2. apply Ht2. apply Hsub. exact Hx. }
  destruct (mapM_ok_Forall dep_of_code (firstn n (skipn 1 dep_codes))) as [deps Ed].
  { apply Forall_forall. intros x Hx. apply dep_of_code_ok. rewrite Forall_forall in Hd2. apply Hd2. apply Hsub. exact Hx. }
  pose proof (mapM_length _ _ _ Et) as Lt. pose proof (mapM_length _ _ _ Ed) as Ld. rewrite Hlen in Lt, Ld by assumption.
  rewrite Et, Ed. cbn [rbind]. replace (n + 2 - 2) with n by lia. rewrite kept_spec by lia. cbn [rbind].
  rewrite filter_pairs.
  assert (EW : filter (fun i => match nth_error deps i with Some d => negb (dep_eqb d NODEP) | None => false end) (seq 0 n) = in_tree deps)
    by (unfold in_tree; rewrite Ld; reflexivity).
  rewrite EW.
  assert (Hw : forall w, In w (in_tree deps) -> w < length deps).
  { intros w Hw. apply in_tree_In in Hw. destruct Hw as (d & E & _). apply nth_error_Some. congruence. }
  assert (C0 : core (in_tree deps) [] (in_tree deps) []).
  { constructor; [constructor|apply in_tree_sorted|intros s b []|intros x []|intros x Hx; exact Hx|intros l p c []| |intros a b []|constructor].
    intros x Hp. apply path_last in Hp. destruct Hp as (? & ? & []). }
  destruct (in_tree deps) as [|w W] eqn:EI.
  - eexists. split; [reflexivity|]. cbn [p_tags p_deps p_arcs p_stack p_buffer]. rewrite EI. repeat (split; [auto; fail|]).
    split; [|do 3 (split; [reflexivity|]); reflexivity]. split; [exact C0|]. split; [intros H; contradiction|intros ? []].
  - unfold p_shift. cbn [p_buffer]. eexists. split; [reflexivity|]. cbn [set_state p_tags p_deps p_arcs p_stack p_buffer]. rewrite EI.
    repeat (split; [auto; fail|]). split; [|split; [reflexivity|]].
    + split; [apply core_shift; exact C0|]. split; [discriminate|exact Hw].
    + split; [unfold msr, msr0; cbn; lia|]. split; reflexivity.
Qed.

Lemma run_inv W p ts p' : inv W p -> run p ts p' ->
  inv W p' /\ length ts + msr p' <= msr p /\ p_tags p' = p_tags p /\ p_deps p' = p_deps p /\ (ts <> [] -> 1 <= msr p').
Proof.
  intros Hi H. induction H as [p|p t p' ts p'' Hc E Hr IH].
  - split; [exact Hi|]. split; [cbn; lia|]. split; [reflexivity|]. split; [reflexivity|]. congruence.
  - destruct (step_inv W p t Hi Hc) as (q & Eq & Hq & Hm & Ht & Hd & H1). rewrite E in Eq. injection Eq as <-.
    destruct (IH Hq) as (I1 & I2 & I3 & I4 & I5). split; [exact I1|]. split; [cbn [length]; lia|]. split; [congruence|]. split; [congruence|].
    intros _. destruct ts; [inversion Hr; subst; exact H1|]. apply I5. discriminate.
Qed.

(** * Roots *)
Lemma p_root_spec p : match p_root p with
  | None => forall a, In a (p_arcs p) -> In (a_parent a) (map a_child (p_arcs p))
  | Some r => (exists a, In a (p_arcs p) /\ (a_parent a = r \/ a_child a = r)) /\ ~ In r (map a_child (p_arcs p)) /\
              (forall a, In a (p_arcs p) -> ~ In (a_parent a) (map a_child (p_arcs p)) -> r <= a_parent a)
  end.
Proof.
  unfold p_root. set (A := p_arcs p).
  assert (EC : map (fun '(_, _, cidx) => cidx) A = map a_child A) by (apply map_ext; intros [[? ?] ?]; reflexivity).
  rewrite EC. set (f := fun x => negb (existsb (Nat.eqb x) (map a_child A))). set (cands := flat_map (fun '(_, pidx, cidx) => [pidx; cidx]) A).
  assert (Hf : forall x, f x = true <-> ~ In x (map a_child A)).
  { intros x. unfold f. rewrite negb_true_iff. split.
    - intros H Hin. assert (existsb (Nat.eqb x) (map a_child A) = true); [|congruence]. apply existsb_exists. exists x. split; [exact Hin|apply Nat.eqb_refl].
    - intros H. destruct (existsb _ _) eqn:E; [|reflexivity]. apply existsb_exists in E. destruct E as (y & Hy & E). apply Nat.eqb_eq in E. subst. contradiction. }
  assert (Hcand : forall x, In x cands <-> exists a, In a A /\ (a_parent a = x \/ a_child a = x)).
  { intros x. unfold cands. rewrite in_flat_map. split; intros ([[l q] c] & Hin & H); exists (l, q, c); (split; [exact Hin|]); cbn in *; intuition. }
  pose proof (Permutation.Permutation_sym (isort_perm Nat.leb (filter f cands))) as HP.
  assert (HS : Sorted.StronglySorted (fun x y => Nat.leb x y = true) (isort Nat.leb (filter f cands))).
  { apply isort_sorted.
    - intros x y. rewrite !Nat.leb_le. lia.
    - intros x y z H1 H2. apply Nat.leb_le in H1. apply Nat.leb_le in H2. apply Nat.leb_le. lia. }
  destruct (isort Nat.leb (filter f cands)) as [|r rs] eqn:E; cbn [hd_error].
  - intros a Ha. destruct (in_dec Nat.eq_dec (a_parent a) (map a_child A)) as [|Hn]; [assumption|]. exfalso.
    assert (In (a_parent a) (filter f cands)) by (apply filter_In; split; [apply Hcand; eauto|apply Hf; exact Hn]).
    apply (Permutation.Permutation_in _ (Permutation.Permutation_sym HP)) in H. destruct H.
  - assert (Hr : In r (filter f cands)) by (apply (Permutation.Permutation_in _ HP); left; reflexivity).
    apply filter_In in Hr. destruct Hr as [Hr1 Hr2]. split; [apply Hcand; exact Hr1|]. split; [apply Hf; exact Hr2|].
    intros a Ha Hn. assert (Hin : In (a_parent a) (r :: rs)).
    { apply (Permutation.Permutation_in _ (Permutation.Permutation_sym HP)). apply filter_In. split; [apply Hcand; eauto|apply Hf; exact Hn]. }
    destruct Hin as [->|Hin]; [lia|]. inversion HS; subst. rewrite Forall_forall in H2. apply H2 in Hin. apply Nat.leb_le in Hin. exact Hin.
Qed.
Lemma p_root_None p : acyclic (p_arcs p) -> (p_root p = None <-> p_arcs p = []).
Proof.
  intros Hac. pose proof (p_root_spec p) as H. split.
  - intros E. rewrite E in H. destruct (p_arcs p) as [|[[l q] c] A] eqn:EA; [reflexivity|]. exfalso.
    destruct (source_above _ Hac q) as (r & Hr & Hn). apply Hn. destruct Hr as [->|Hr].
    + apply (H (l, q, c)). left. reflexivity.
    + assert (exists l' y, In (l', r, y) ((l, q, c) :: A)) as (l' & y & Hin) by (inversion Hr; eauto). apply (H _ Hin).
  - intros E. unfold p_root. rewrite E. reflexivity.
Qed.
Lemma build_tree_ok W p : inv W p -> build_tree p = Ok (match p_root p with None => None | Some r => Some (tree_of r (p_arcs p)) end).
Proof.
  intros (HC & _). unfold build_tree. destruct (p_root p) as [r|]; [|reflexivity].
  change (foldM (fun t '(d, pidx, cidx) => register_child t d pidx cidx) (new_tree r) (p_arcs p)) with (build r (p_arcs p)).
  rewrite build_ok; [reflexivity|]. apply Forall_forall. intros [[l q] c] Hin. cbn. apply (c_arc _ _ _ _ HC l q c Hin).
Qed.

Lemma filter_seq_count {X} (f : X -> bool) l : forall k,
  length (filter (fun i => match nth_error l (i - k) with Some d => f d | None => false end) (seq k (length l))) = length (filter f l).
Proof.
  induction l as [|x l IH]; intros k; cbn [length seq filter]; [reflexivity|]. rewrite Nat.sub_diag. cbn [nth_error].
  assert (E : filter (fun i => match nth_error (x :: l) (i - k) with Some d => f d | None => false end) (seq (S k) (length l)) =
              filter (fun i => match nth_error l (i - S k) with Some d => f d | None => false end) (seq (S k) (length l))).
  { apply filter_ext_in. intros i Hi. apply in_seq in Hi. replace (i - k) with (S (i - S k)) by lia. reflexivity. }
  destruct (f x); cbn [length]; rewrite E, IH; reflexivity.
Qed.
Lemma in_tree_count deps : length (in_tree deps) = nb_in_tree deps.
Proof.
  unfold in_tree, nb_in_tree. rewrite <- (filter_seq_count (fun d => negb (dep_eqb d NODEP)) deps 0). f_equal. apply filter_ext. intros i.
  rewrite Nat.sub_0_r. reflexivity.
Qed.
(** everything known about a reachable parse *)
Lemma parse_of_inv n p0 ts p : start n p0 -> run p0 ts p ->
  inv (in_tree (p_deps p)) p /\ p_deps p = p_deps p0 /\ p_tags p = p_tags p0 /\ length (p_deps p) = n /\ length (p_tags p) = n /\
  length ts + msr p <= 2 * nb_in_tree (p_deps p0) - 1 /\ (ts <> [] -> 1 <= msr p).
Proof.
  intros (Hn & tc & dc & Ht & Hd & E) Hr.
  destruct (init_parse_ok n tc dc Hn Ht Hd) as (q & Eq & _ & _ & Lt & Ld & Hi & _ & Hm & _).
  rewrite E in Eq. injection Eq as <-. destruct (run_inv _ _ _ _ Hi Hr) as (I1 & I2 & I3 & I4 & I5).
  rewrite I4, I3. do 5 (split; [auto|]). split; [|exact I5]. rewrite <- in_tree_count. unfold msr0 in Hm. lia.
Qed.

(** * At most one head on each side *)
Definition heads_ok (A : list arc) : Prop := forall l p c l' p', In (l, p, c) A -> In (l', p', c) A ->
  ((p < c /\ p' < c) \/ (c < p /\ c < p')) -> l = l' /\ p = p'.
Lemma heads_add A d p c : heads_ok A ->
  (forall l q, In (l, q, c) A -> ~ ((p < c /\ q < c) \/ (c < p /\ c < q))) -> heads_ok (A ++ [(d, p, c)]).
Proof.
  intros H Hn l1 p1 c1 l2 p2 H1 H2 Hs. apply in_app_iff in H1. apply in_app_iff in H2.
  destruct H1 as [H1|[E1|[]]]; destruct H2 as [H2|[E2|[]]].
  - eapply H; eauto.
  - injection E2 as <- <- <-. exfalso. apply (Hn _ _ H1). intuition.
  - injection E1 as <- <- <-. exfalso. apply (Hn _ _ H2). intuition.
  - injection E1 as <- <- <-. injection E2 as <- <-. auto.
Qed.
Lemma step_heads W p t p' : inv W p -> p_complete p = false -> register_transition p t = Ok p' -> heads_ok (p_arcs p) -> heads_ok (p_arcs p').
Proof.
  intros (HC & Hne & Hw) Hinc E HA. unfold p_complete in Hinc.
  destruct (p_buffer p) as [|b B] eqn:EB; [discriminate|]. destruct (p_stack p) as [|s S] eqn:ES; [exfalso; apply Hne; [discriminate|reflexivity]|].
  assert (RED : forall q q', p_reduce q = Ok q' -> p_arcs q' = p_arcs q).
  { intros q q' Eq. unfold p_reduce in Eq. destruct (p_stack q) as [|? [|? ?]]; [discriminate| |injection Eq as <-; reflexivity].
    unfold p_shift in Eq. cbn in Eq. destruct (p_buffer q); [discriminate|]. injection Eq as <-. reflexivity. }
  assert (SH : forall q q', p_shift q = Ok q' -> p_arcs q' = p_arcs q).
  { intros q q' Eq. unfold p_shift in Eq. destruct (p_buffer q); [discriminate|]. injection Eq as <-. reflexivity. }
  assert (Hlt : s < b) by (apply (c_SB _ _ _ _ HC); left; reflexivity).
  unfold register_transition, stack_top, buffer_first in E. rewrite EB, ES in E. destruct t; cbn [rbind] in E.
  - destruct (p_pdep p s) as [d|]; [|discriminate]. cbn [rbind] in E. apply RED in E. rewrite E. cbn [p_arcs set_state]. apply heads_add; [exact HA|].
    intros l q Hin. destruct (c_arc _ _ _ _ HC l q s Hin) as (_ & _ & _ & _ & _ & A6 & _). destruct (A6 (or_introl eq_refl)). lia.
  - destruct (p_pdep p b) as [d|]; [|discriminate]. cbn [rbind] in E. apply SH in E. rewrite E. cbn [p_arcs set_state]. apply heads_add; [exact HA|].
    intros l q Hin. destruct (c_arc _ _ _ _ HC l q b Hin) as (_ & _ & _ & _ & A5 & _). destruct (A5 b (or_introl eq_refl)). lia.
  - apply RED in E. rewrite E. exact HA.
  - apply SH in E. rewrite E. exact HA.
Qed.
Lemma run_heads W p ts p' : inv W p -> run p ts p' -> heads_ok (p_arcs p) -> heads_ok (p_arcs p').
Proof.
  intros Hi H. revert Hi. induction H as [p|p t p' ts p'' Hc E Hr IH]; intros Hi HA; [exact HA|].
  destruct (step_inv W p t Hi Hc) as (q & Eq & Hq & _). rewrite E in Eq. injection Eq as <-. apply IH; [exact Hq|]. exact (step_heads W p t p' Hi Hc E HA).
Qed.
Lemma start_inv n p0 : start n p0 -> inv (in_tree (p_deps p0)) p0 /\ p_arcs p0 = [] /\
    rev (p_stack p0) ++ p_buffer p0 = in_tree (p_deps p0) /\ length (p_stack p0) = Nat.min 1 (length (in_tree (p_deps p0))).
Proof.
  intros (Hn & tc & dc & Ht & Hd & E). destruct (init_parse_ok n tc dc Hn Ht Hd) as (q & Eq & _ & _ & _ & _ & Hi & Ha & _ & Hs).
  rewrite E in Eq. injection Eq as <-. auto.
Qed.
(** labels are the predicted dependencies of the child, ROOT replaced by SPLIT *)
Definition labels_ok (deps : list dep) (A : list arc) : Prop := forall l p c, In (l, p, c) A ->
  exists d, nth_error deps c = Some d /\ l = match d with ROOT => SPLIT | _ => d end.
Lemma p_pdep_value p c d : p_pdep p c = Ok d -> exists d0, nth_error (p_deps p) c = Some d0 /\ d = match d0 with ROOT => SPLIT | _ => d0 end.
Proof.
  unfold p_pdep. rewrite index_nat. destruct (nth_error (p_deps p) c) as [d0|]; [|discriminate]. cbn. intros E. injection E as <-. eauto.
Qed.
Lemma step_labels p t p' : register_transition p t = Ok p' -> p_deps p' = p_deps p /\ (labels_ok (p_deps p) (p_arcs p) -> labels_ok (p_deps p) (p_arcs p')).
Proof.
  assert (SH : forall q q', p_shift q = Ok q' -> p_arcs q' = p_arcs q /\ p_deps q' = p_deps q).
  { intros q q' Eq. unfold p_shift in Eq. destruct (p_buffer q); [discriminate|]. injection Eq as <-. split; reflexivity. }
  assert (RED : forall q q', p_reduce q = Ok q' -> p_arcs q' = p_arcs q /\ p_deps q' = p_deps q).
  { intros q q' Eq. unfold p_reduce in Eq. destruct (p_stack q) as [|? [|? ?]]; [discriminate| |injection Eq as <-; split; reflexivity].
    apply SH in Eq. exact Eq. }
  assert (ADD : forall d q c, p_pdep p c = Ok d -> labels_ok (p_deps p) (p_arcs p) -> labels_ok (p_deps p) (p_arcs p ++ [(d, q, c)])).
  { intros d q c Ed HA l p1 c1 Hin. apply in_app_iff in Hin. destruct Hin as [Hin|[E|[]]]; [eapply HA; eauto|]. injection E as <- <- <-. apply p_pdep_value. exact Ed. }
  unfold register_transition. destruct t; intros E.
  - apply rbind_Ok in E. destruct E as (s & _ & E). apply rbind_Ok in E. destruct E as (d & Ed & E). apply rbind_Ok in E. destruct E as (b & _ & E).
    apply RED in E. destruct E as [-> ->]. cbn. split; [reflexivity|]. apply ADD. exact Ed.
  - apply rbind_Ok in E. destruct E as (s & _ & E). apply rbind_Ok in E. destruct E as (d & Ed & E). apply rbind_Ok in E. destruct E as (b & _ & E).
    apply SH in E. destruct E as [-> ->]. cbn. split; [reflexivity|]. apply ADD. exact Ed.
  - apply RED in E. destruct E as [-> ->]. auto.
  - apply SH in E. destruct E as [-> ->]. auto.
Qed.
Lemma run_labels p ts p' : run p ts p' -> labels_ok (p_deps p) (p_arcs p) -> labels_ok (p_deps p) (p_arcs p').
Proof.
  induction 1 as [p|p t p' ts p'' _ E _ IH]; intros HA; [exact HA|]. destruct (step_labels p t p' E) as [Ed HL]. rewrite Ed in IH. apply IH. apply HL. exact HA.
Qed.
