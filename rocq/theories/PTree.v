(** Properties C19, C20: scrappybara/utils/tree.py as the history of its registrations. *)
From Coq Require Import List Arith Bool Lia.
From Verif Require Import PyBase MTree SUtils STree LTree.
Import ListNotations.
Local Open Scope nat_scope.

(** * C19: a tree answers exactly what was registered *)
(** [register_all root h] makes the calls of [h], in order, on Tree(root). *)
Definition register_all (root : nat) (h : list arc) : res tree :=
  foldM (fun t '(label, parent, child) => register_child t label parent child) (new_tree root) h.
Theorem C19_tree_is_its_history : forall root h,
  (* registering a node under itself is rejected, nothing else is *)
  ((exists a, In a h /\ a_parent a = a_child a) <-> exists e, register_all root h = Err e) /\
  (forall t, register_all root h = Ok t ->
    t_root t = root /\
    (forall x, t_parent t x = last_reg h x) /\
    (forall x l p, last_reg h x = Some (l, p) <-> exists h1 h2, h = h1 ++ (l, p, x) :: h2 /\ ~ In x (map a_child h2)) /\
    (forall x l, children_via t x l = kids h l x) /\
    (forall x l c, In (l, c) (t_children_of t x) <-> In (l, x, c) h) /\
    (forall x l, child_via t x l = hd_error (kids h l x)) /\
    (forall x l, has_child_via t x l = true <-> kids h l x <> []) /\
    (forall x ls, has_child_via_set t x ls = true <-> exists l, In l ls /\ kids h l x <> []) /\
    (forall x l, has_parent_via t x l = true <-> exists p, last_reg h x = Some (l, p)) /\
    (forall x ls, has_parent_via_set t x ls = true <-> exists l p, In l ls /\ last_reg h x = Some (l, p)) /\
    (forall x, has_node t x = true <-> exists a, In a h /\ (a_parent a = x \/ a_child a = x)) /\
    (forall x l c, In (l, c) (siblings t x) <-> c <> x /\ exists l' p, last_reg h x = Some (l', p) /\ In (l, p, c) h) /\
    t_nodes t = root :: firsts Nat.eqb (map a_child h) /\
    t_len t = length (t_nodes t) /\
    map a_child (t_iter t) = firsts Nat.eqb (map a_child h) /\
    (forall a, In a (t_iter t) -> last_reg h (a_child a) = Some (a_label a, a_parent a))).
Proof.
  intros root h. change (register_all root h) with (build root h).
  assert (Hdec : no_loop h \/ exists a, In a h /\ a_parent a = a_child a).
  { unfold no_loop. induction h as [|a h IH]; [left; constructor|]. destruct IH as [IH|(b & Hb & E)]; [|right; exists b; split; [right; exact Hb|exact E]].
    destruct (Nat.eq_dec (a_parent a) (a_child a)) as [E|E]; [right; exists a; split; [left; reflexivity|exact E]|left; constructor; assumption]. }
  split.
  - split.
    + intros (a & Ha & E). apply build_loop. intros H. unfold no_loop in H. rewrite Forall_forall in H. exact (H a Ha E).
    + intros (e & E). destruct Hdec as [H|H]; [|exact H]. rewrite build_ok in E by exact H. discriminate.
  - intros t Et. assert (HN : no_loop h).
    { destruct Hdec as [H|(a & Ha & E)]; [exact H|]. exfalso. destruct (build_loop root h) as [e Ee]; [|congruence].
      intros H. unfold no_loop in H. rewrite Forall_forall in H. exact (H a Ha E). }
    rewrite build_ok in Et by exact HN. injection Et as <-.
    assert (Hk : forall x l, kids h l x <> [] <-> exists c, In (l, x, c) h).
    { intros x l. unfold kids. rewrite <- children_via_spec with (root := root). split.
      - destruct (children_via (tree_of root h) x l) as [|c cs] eqn:E; [congruence|]. intros _. exists c. apply (In_children_via root). rewrite E. left. reflexivity.
      - intros (c & Hc) E. apply (In_children_via root) in Hc. rewrite E in Hc. exact Hc. }
    repeat split.
    + apply tree_of_root.
    + intros x. apply tree_parent.
    + apply last_reg_spec.
    + apply last_reg_spec.
    + intros x l. apply children_via_spec.
    + apply In_children_of.
    + apply In_children_of.
    + intros x l. rewrite child_via_spec, children_via_spec. reflexivity.
    + intros H. apply Hk. apply has_child_via_spec in H. exact H.
    + intros H. apply has_child_via_spec. apply Hk. exact H.
    + intros H. apply has_child_via_set_spec in H. destruct H as (l & c & H1 & H2). exists l. split; [exact H1|]. apply Hk. eauto.
    + intros (l & H1 & H2). apply Hk in H2. destruct H2 as [c H2]. apply has_child_via_set_spec. eauto.
    + unfold has_parent_via. rewrite tree_parent. destruct (last_reg h x) as [[l' p]|]; [|discriminate]. intros H. apply dep_eqb_ok in H. subst. eauto.
    + intros (p & E). unfold has_parent_via. rewrite tree_parent, E. apply dep_eqb_refl.
    + unfold has_parent_via_set. rewrite tree_parent. destruct (last_reg h x) as [[l' p]|]; [|discriminate]. intros H. apply dep_in_In in H. eauto.
    + intros (l & p & H1 & E). unfold has_parent_via_set. rewrite tree_parent, E. apply dep_in_In. exact H1.
    + apply has_node_spec.
    + apply has_node_spec.
    + revert H. unfold siblings. rewrite tree_parent. destruct (last_reg h x) as [[l' p]|]; [|intros []]. rewrite filter_In. intros [_ H]. intros ->. rewrite Nat.eqb_refl in H. discriminate.
    + revert H. unfold siblings. rewrite tree_parent. destruct (last_reg h x) as [[l' p]|]; [|intros []]. rewrite filter_In. intros [H _]. apply In_children_of in H. eauto.
    + intros (Hne & l' & p & E & H). unfold siblings. rewrite tree_parent, E. apply filter_In. split; [apply In_children_of; exact H|].
      apply negb_true_iff. apply Nat.eqb_neq. exact Hne.
    + unfold t_nodes. rewrite tree_of_root, tree_parents_keys. reflexivity.
    + apply t_iter_spec.
    + intros a Ha. destruct (t_iter_spec root h) as [H1 H2].
      assert (Hin : In (last_reg h (a_child a), a_child a) (combine (map (last_reg h) (firsts Nat.eqb (map a_child h))) (firsts Nat.eqb (map a_child h)))).
      { assert (Hc : In (a_child a) (firsts Nat.eqb (map a_child h))) by (rewrite <- H2; apply in_map; exact Ha).
        clear - Hc. induction (firsts Nat.eqb (map a_child h)) as [|y l IH]; [destruct Hc|]. cbn. destruct Hc as [->|Hc]; [left; reflexivity|right; auto]. }
      clear Hin. rewrite <- H2 in H1. rewrite map_map in H1. clear - H1 Ha. induction (t_iter (tree_of root h)) as [|b l IH]; [destruct Ha|].
      cbn in H1. injection H1 as E1 E2. destruct Ha as [->|Ha]; [symmetry; exact E1|apply IH; assumption].
Qed.
(** a history with a node registered twice under different parents *)
Example C19_witness : exists t, register_all 1 [(SUBJ, 1, 0); (OBJ, 1, 2); (OBJ, 1, 3); (PROP, 3, 2)] = Ok t /\
  t_parent t 2 = Some (PROP, 3) /\ children_via t 1 OBJ = [2; 3] /\ child_via t 1 SUBJ = Some 0 /\ t_nodes t = [1; 0; 2; 3].
Proof. eexists. split; [reflexivity|]. repeat split. Qed.

(** * C20: refuted. A node registered again stays listed under its first parent. *)
Theorem C20_refuted : exists root h t p l c, register_all root h = Ok t /\
  In c (children_via t p l) /\ t_parent t c <> Some (l, p) /\ (forall l', t_parent t c <> Some (l', p)).
Proof.
  exists 1, [(SUBJ, 1, 0); (PROP, 2, 0)]. eexists; exists 1, SUBJ, 0. split; [reflexivity|]. split; [left; reflexivity|]. split; [discriminate|].
  intros l'. cbn. discriminate.
Qed.
(** It holds when no node is registered twice as a child. Missing: nothing prevents a second
    registration. *)
Theorem C20_partial : forall root h t p l c, register_all root h = Ok t -> NoDup (map a_child h) ->
  In c (children_via t p l) <-> t_parent t c = Some (l, p).
Proof.
  intros root h t p l c Et Hnd. destruct (C19_tree_is_its_history root h) as [_ H]. destruct (H t Et) as (_ & Hp & Hs & Hc & _). rewrite Hp, Hc.
  unfold kids. rewrite in_map_iff. split.
  - intros ([[l' p'] c'] & E & Hin). cbn in E. subst c'. apply filter_In in Hin. destruct Hin as [Hin Hb]. cbn in Hb. apply andb_true_iff in Hb.
    destruct Hb as [Hb1 Hb2]. apply Nat.eqb_eq in Hb1. apply dep_eqb_ok in Hb2. subst. apply in_split in Hin. destruct Hin as (h1 & h2 & ->).
    apply Hs. exists h1, h2. split; [reflexivity|]. rewrite map_app in Hnd. cbn in Hnd. apply NoDup_remove_2 in Hnd. intros Hc'. apply Hnd. apply in_or_app. auto.
  - intros E. apply last_reg_In in E. exists (l, p, c). split; [reflexivity|]. apply filter_In. split; [exact E|]. cbn. rewrite Nat.eqb_refl, dep_eqb_refl. reflexivity.
Qed.
Example C20_partial_witness : exists t, register_all 1 [(SUBJ, 1, 0); (OBJ, 1, 2); (PROP, 2, 3)] = Ok t /\
  NoDup (map a_child [(SUBJ, 1, 0); (OBJ, 1, 2); (PROP, 2, 3)]) /\ In 3 (children_via t 2 PROP).
Proof. eexists. split; [reflexivity|]. split; [repeat constructor; cbn; intuition lia|left; reflexivity]. Qed.

Print Assumptions C19_tree_is_its_history.
Print Assumptions C20_refuted.
Print Assumptions C20_partial.
