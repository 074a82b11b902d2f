(** Proofs about utils/tree.py. *)
From Coq Require Import List NArith ZArith Arith Bool Lia.
From Verif Require Import PyBase MUtils MTree SUtils STree LBase LText.
Import ListNotations.
Local Open Scope nat_scope.

Lemma nat_eqb_ok : eqb_ok Nat.eqb.
Proof. intros x y. apply Nat.eqb_eq. Qed.
Lemma dep_eqb_ok : eqb_ok dep_eqb.
Proof. intros x y. unfold dep_eqb. destruct (dep_eq_dec x y); split; congruence. Qed.
Lemma tag_eqb_ok : eqb_ok tag_eqb.
Proof. intros x y. unfold tag_eqb. destruct (tag_eq_dec x y); split; congruence. Qed.
Lemma dep_eqb_refl d : dep_eqb d d = true.
Proof. apply dep_eqb_ok. reflexivity. Qed.
Lemma dep_in_In d l : dep_in d l = true <-> In d l.
Proof.
  unfold dep_in. rewrite existsb_exists. split.
  - intros (x & Hx & E). apply dep_eqb_ok in E. subst. exact Hx.
  - intros H. exists d. split; [exact H|apply dep_eqb_refl].
Qed.
Lemma tag_in_In d l : tag_in d l = true <-> In d l.
Proof.
  unfold tag_in. rewrite existsb_exists. split.
  - intros (x & Hx & E). apply tag_eqb_ok in E. subst. exact Hx.
  - intros H. exists d. split; [exact H|apply tag_eqb_ok; reflexivity].
Qed.

(** The tree reached by a list of registrations. *)
Definition build (root : nat) (h : list arc) : res tree :=
  foldM (fun t '(l, p, c) => register_child t l p c) (new_tree root) h.
Definition no_loop (h : list arc) : Prop := Forall (fun a => a_parent a <> a_child a) h.

Definition tree_add (t : tree) (l : dep) (p c : nat) : tree :=
  {| t_root := t_root t;
     t_children := append_in_dict_dict_list Nat.eqb dep_eqb (t_children t) p l c;
     t_parents := dset Nat.eqb c (l, p) (t_parents t) |}.
Definition tree_of (root : nat) (h : list arc) : tree := fold_left (fun t '(l, p, c) => tree_add t l p c) h (new_tree root).

Lemma register_child_ok t l p c : p <> c -> register_child t l p c = Ok (tree_add t l p c).
Proof. intros H. unfold register_child. apply Nat.eqb_neq in H. rewrite H. reflexivity. Qed.
Lemma register_child_self t l p : register_child t l p p = Err AssertionError.
Proof. unfold register_child. rewrite Nat.eqb_refl. reflexivity. Qed.

Lemma foldM_tree h : forall t, no_loop h ->
  foldM (fun t '(l, p, c) => register_child t l p c) t h = Ok (fold_left (fun t '(l, p, c) => tree_add t l p c) h t).
Proof.
  induction h as [|[[l p] c] h IH]; intros t H; [reflexivity|]. inversion H; subst.
  cbn [foldM]. rewrite register_child_ok by assumption. cbn [rbind fold_left]. apply IH. assumption.
Qed.
Lemma build_ok root h : no_loop h -> build root h = Ok (tree_of root h).
Proof. intros H. apply foldM_tree. exact H. Qed.
Lemma build_loop root h : ~ no_loop h -> exists e, build root h = Err e.
Proof.
  intros H. unfold build. generalize (new_tree root) as t. induction h as [|[[l p] c] h IH]; intros t.
  - exfalso. apply H. constructor.
  - cbn [foldM]. destruct (Nat.eq_dec p c) as [->|Hne].
    + rewrite register_child_self. cbn [rbind]. eauto.
    + rewrite register_child_ok by exact Hne. cbn [rbind]. apply IH. intros Hn. apply H. constructor; assumption.
Qed.

Lemma tree_of_app root h a : tree_of root (h ++ [a]) = tree_add (tree_of root h) (a_label a) (a_parent a) (a_child a).
Proof. unfold tree_of. rewrite fold_left_app. cbn [fold_left]. destruct a as [[l p] c]. reflexivity. Qed.
Lemma tree_of_root root h : t_root (tree_of root h) = root.
Proof. induction h as [|a h IH] using rev_ind; [reflexivity|]. rewrite tree_of_app. exact IH. Qed.

Lemma append2_dget (d : dict nat (dict dep (list nat))) p l c x :
  dget Nat.eqb x (append_in_dict_dict_list Nat.eqb dep_eqb d p l c) =
  if x =? p then Some (append_to_dict_list dep_eqb (match dget Nat.eqb p d with Some i => i | None => [] end) l c)
  else dget Nat.eqb x d.
Proof.
  unfold append_in_dict_dict_list, append_to_dict_list. destruct (dget Nat.eqb p d) as [i|] eqn:E.
  - destruct (dget dep_eqb l i) eqn:E2; rewrite (dget_dset _ nat_eqb_ok); reflexivity.
  - rewrite (dget_dset _ nat_eqb_ok). destruct (x =? p); reflexivity.
Qed.

(** children *)
Lemma under_app h a p : under (h ++ [a]) p = under h p ++ (if p =? a_parent a then [(a_label a, a_child a)] else []).
Proof. unfold under. rewrite filter_app, map_app. cbn [filter]. destruct (p =? a_parent a); reflexivity. Qed.
Lemma tree_children root h x :
  dget Nat.eqb x (t_children (tree_of root h)) = match under h x with [] => None | _ => Some (group dep_eqb (under h x)) end.
Proof.
  induction h as [|a h IH] using rev_ind; [reflexivity|].
  rewrite tree_of_app, under_app. cbn [t_children tree_add]. rewrite append2_dget.
  destruct (Nat.eqb_spec x (a_parent a)) as [->|Hne].
  - rewrite IH. unfold group. rewrite fold_left_app. cbn [fold_left].
    destruct (under h (a_parent a)) as [|u us]; reflexivity.
  - rewrite app_nil_r. exact IH.
Qed.

Lemma existsb_under_label l us : existsb (fun p : dep * nat => dep_eqb l (fst p)) us = false -> filter (fun p => dep_eqb l (fst p)) us = [].
Proof. induction us as [|u us IH]; simpl; [reflexivity|]. intros H. apply orb_false_iff in H. destruct H as [-> H]. auto. Qed.

Lemma children_via_spec root h x l :
  children_via (tree_of root h) x l = map a_child (filter (fun a => (x =? a_parent a) && dep_eqb l (a_label a)) h).
Proof.
  unfold children_via. rewrite tree_children.
  assert (E : map a_child (filter (fun a => (x =? a_parent a) && dep_eqb l (a_label a)) h) = values_of dep_eqb l (under h x)).
  { unfold values_of, under. clear. induction h as [|a h IH]; [reflexivity|]. cbn [filter].
    destruct (x =? a_parent a); cbn [andb map filter fst]; [|exact IH].
    destruct (dep_eqb l (a_label a)); cbn [map snd]; rewrite IH; reflexivity. }
  rewrite E. destruct (under h x) as [|u us] eqn:Eu; [reflexivity|].
  rewrite (proj2 (group_spec dep_eqb dep_eqb_ok (u :: us))).
  destruct (existsb (fun p => dep_eqb l (fst p)) (u :: us)) eqn:Ex; [reflexivity|].
  unfold values_of. rewrite (existsb_under_label _ _ Ex). reflexivity.
Qed.
Lemma children_of_spec root h x :
  t_children_of (tree_of root h) x =
  flat_map (fun l => map (fun c => (l, c)) (children_via (tree_of root h) x l)) (firsts dep_eqb (map fst (under h x))).
Proof.
  unfold t_children_of. rewrite tree_children.
  destruct (under h x) as [|u us] eqn:Eu; [reflexivity|].
  destruct (group_spec dep_eqb dep_eqb_ok (u :: us)) as [H1 H2]. rewrite <- H1.
  assert (ND : NoDup (dkeys (group dep_eqb (u :: us)))) by (rewrite H1; apply NoDup_firsts; apply dep_eqb_ok).
  assert (HC : forall l cs, In (l, cs) (group dep_eqb (u :: us)) -> children_via (tree_of root h) x l = cs).
  { intros l cs Hin. apply (In_dget _ dep_eqb_ok _ _ _ ND) in Hin. unfold children_via. rewrite tree_children, Eu, Hin. reflexivity. }
  clear H1 H2 ND. generalize dependent (group dep_eqb (u :: us)). intros g Hg. unfold dkeys.
  induction g as [|[l cs] g IH]; [reflexivity|]. cbn [flat_map map fst]. rewrite (Hg l cs) by (left; reflexivity).
  f_equal. apply IH. intros l' cs' Hin. apply Hg. right. exact Hin.
Qed.
Lemma In_children_of root h x l c : In (l, c) (t_children_of (tree_of root h) x) <-> In (l, x, c) h.
Proof.
  rewrite children_of_spec, in_flat_map. split.
  - intros (l' & _ & Hin). apply in_map_iff in Hin. destruct Hin as (c' & E & Hin). injection E as -> ->.
    rewrite children_via_spec in Hin. apply in_map_iff in Hin. destruct Hin as ([[l0 p0] c0] & <- & Hin).
    apply filter_In in Hin. destruct Hin as [Hin Hc]. apply andb_true_iff in Hc. destruct Hc as [H1 H2].
    apply Nat.eqb_eq in H1. apply dep_eqb_ok in H2. cbn in *. subst. exact Hin.
  - intros Hin. exists l. split.
    + apply (proj2 (In_firsts _ dep_eqb_ok _ _)). apply in_map_iff. exists (l, c). split; [reflexivity|].
      unfold under. apply in_map_iff. exists (l, x, c). split; [reflexivity|]. apply filter_In. split; [exact Hin|apply Nat.eqb_refl].
    + apply in_map. rewrite children_via_spec. apply in_map_iff. exists (l, x, c). split; [reflexivity|].
      apply filter_In. split; [exact Hin|]. cbn. rewrite Nat.eqb_refl, dep_eqb_refl. reflexivity.
Qed.
Lemma In_children_via root h x l c : In c (children_via (tree_of root h) x l) <-> In (l, x, c) h.
Proof.
  rewrite children_via_spec, in_map_iff. split.
  - intros ([[l0 p0] c0] & <- & Hin).
    apply filter_In in Hin. destruct Hin as [Hin Hc]. apply andb_true_iff in Hc. destruct Hc as [H1 H2].
    apply Nat.eqb_eq in H1. apply dep_eqb_ok in H2. cbn in *. subst. exact Hin.
  - intros Hin. exists (l, x, c). split; [reflexivity|]. apply filter_In. split; [exact Hin|]. cbn. rewrite Nat.eqb_refl, dep_eqb_refl. reflexivity.
Qed.
Lemma child_via_spec root h x l : child_via (tree_of root h) x l = hd_error (children_via (tree_of root h) x l).
Proof.
  unfold child_via, children_via. destruct (dget Nat.eqb x _) as [d|]; [|reflexivity].
  destruct (dget dep_eqb l d) as [[|c cs]|]; reflexivity.
Qed.
Lemma has_child_via_spec root h x l : has_child_via (tree_of root h) x l = true <-> exists c, In (l, x, c) h.
Proof.
  unfold has_child_via. rewrite tree_children.
  assert (E : (exists c, In (l, x, c) h) <-> existsb (fun p => dep_eqb l (fst p)) (under h x) = true).
  { rewrite existsb_exists. split.
    - intros [c Hc]. exists (l, c). split; [|apply dep_eqb_refl]. unfold under. apply in_map_iff. exists (l, x, c).
      split; [reflexivity|]. apply filter_In. split; [exact Hc|apply Nat.eqb_refl].
    - intros ([l' c] & Hin & E). apply dep_eqb_ok in E. cbn in E. subst. exists c. unfold under in Hin.
      apply in_map_iff in Hin. destruct Hin as ([[l0 p0] c0] & E & Hin). apply filter_In in Hin. destruct Hin as [Hin H1].
      apply Nat.eqb_eq in H1. cbn in *. injection E as -> ->. subst. exact Hin. }
  rewrite E. destruct (under h x) as [|u us] eqn:Eu; [simpl; split; discriminate|].
  unfold dmem. rewrite (proj2 (group_spec dep_eqb dep_eqb_ok (u :: us))).
  destruct (existsb _ (u :: us)); split; congruence.
Qed.
Lemma has_child_via_set_spec root h x ls : has_child_via_set (tree_of root h) x ls = true <-> exists l c, In l ls /\ In (l, x, c) h.
Proof.
  unfold has_child_via_set. rewrite tree_children. destruct (under h x) as [|u us] eqn:Eu.
  - split; [discriminate|]. intros (l & c & _ & H).
    assert (Hin : In (l, c) (under h x)).
    { unfold under. apply in_map_iff. exists (l, x, c). split; [reflexivity|]. apply filter_In. split; [exact H|apply Nat.eqb_refl]. }
    rewrite Eu in Hin. destruct Hin.
  - rewrite (proj1 (group_spec dep_eqb dep_eqb_ok (u :: us))), <- Eu, existsb_exists. split.
    + intros (l & Hl & Hin). apply (proj1 (In_firsts _ dep_eqb_ok _ _)) in Hl. apply dep_in_In in Hin. apply in_map_iff in Hl.
      destruct Hl as ([l' c] & E & Hl). cbn in E. subst l'. exists l, c. split; [exact Hin|]. unfold under in Hl.
      apply in_map_iff in Hl. destruct Hl as ([[l0 p0] c0] & E & Hl). apply filter_In in Hl. destruct Hl as [Hl H1].
      apply Nat.eqb_eq in H1. cbn in *. injection E as -> ->. subst. exact Hl.
    + intros (l & c & Hl & Hin). exists l. split; [|apply dep_in_In; exact Hl]. apply (proj2 (In_firsts _ dep_eqb_ok _ _)). apply in_map_iff.
      exists (l, c). split; [reflexivity|]. unfold under. apply in_map_iff. exists (l, x, c). split; [reflexivity|].
      apply filter_In. split; [exact Hin|apply Nat.eqb_refl].
Qed.

(** parents *)
Lemma last_reg_app h a c : last_reg (h ++ [a]) c = if c =? a_child a then Some (a_label a, a_parent a) else last_reg h c.
Proof. unfold last_reg. rewrite fold_left_app. reflexivity. Qed.
Lemma tree_parent root h c : t_parent (tree_of root h) c = last_reg h c.
Proof.
  induction h as [|a h IH] using rev_ind; [reflexivity|].
  rewrite tree_of_app, last_reg_app. unfold t_parent. cbn [t_parents tree_add]. rewrite (dget_dset _ nat_eqb_ok).
  destruct (c =? a_child a); [reflexivity|exact IH].
Qed.
Lemma last_reg_None h c : last_reg h c = None <-> ~ In c (map a_child h).
Proof.
  induction h as [|a h IH] using rev_ind; [simpl; tauto|].
  rewrite last_reg_app, map_app, in_app_iff. cbn [map In]. destruct (Nat.eqb_spec c (a_child a)) as [E|E].
  - split; [discriminate|]. intros H. exfalso. apply H. right. left. congruence.
  - rewrite IH. intuition congruence.
Qed.
Lemma last_reg_In h c l p : last_reg h c = Some (l, p) -> In (l, p, c) h.
Proof.
  induction h as [|a h IH] using rev_ind; [discriminate|]. rewrite last_reg_app, in_app_iff.
  destruct (Nat.eqb_spec c (a_child a)) as [E|E].
  - intros H; injection H as <- <-. right. left. subst c. destruct a as [[l' p'] c']. reflexivity.
  - intros H. left. auto.
Qed.
Lemma last_reg_unique h c l p : (forall l' p', In (l', p', c) h -> l' = l /\ p' = p) -> In (l, p, c) h -> last_reg h c = Some (l, p).
Proof.
  intros Hu Hin. destruct (last_reg h c) as [[l' p']|] eqn:E.
  - apply last_reg_In in E. destruct (Hu _ _ E) as [-> ->]. reflexivity.
  - apply last_reg_None in E. exfalso. apply E. apply in_map_iff. exists (l, p, c). auto.
Qed.
(** last registration, explicitly *)
Lemma last_reg_spec h c l p : last_reg h c = Some (l, p) <-> exists h1 h2, h = h1 ++ (l, p, c) :: h2 /\ ~ In c (map a_child h2).
Proof.
  induction h as [|a h IH] using rev_ind.
  - split; [discriminate|]. intros (h1 & h2 & E & _). destruct h1; discriminate.
  - rewrite last_reg_app. destruct (Nat.eqb_spec c (a_child a)) as [E|E].
    + split.
      * intros H; injection H as <- <-. exists h, []. subst c. destruct a as [[? ?] ?]. cbn. split; [reflexivity|tauto].
      * intros (h1 & h2 & Eh & Hn). destruct h2 as [|b h2] using rev_ind.
        -- apply app_inj_tail in Eh. destruct Eh as [_ ->]. reflexivity.
        -- exfalso. rewrite app_comm_cons, app_assoc in Eh. apply app_inj_tail in Eh. destruct Eh as [_ <-].
           apply Hn. rewrite map_app, in_app_iff. right. left. congruence.
    + rewrite IH. split; intros (h1 & h2 & Eh & Hn).
      * exists h1, (h2 ++ [a]). subst h. rewrite <- app_assoc. split; [reflexivity|]. rewrite map_app, in_app_iff. cbn. intuition congruence.
      * destruct h2 as [|b h2] using rev_ind.
        -- apply app_inj_tail in Eh. destruct Eh as [_ ->]. cbn in E. congruence.
        -- clear IHh2. rewrite app_comm_cons, app_assoc in Eh. apply app_inj_tail in Eh. destruct Eh as [-> <-].
           exists h1, h2. split; [reflexivity|]. intros Hx. apply Hn. rewrite map_app, in_app_iff. auto.
Qed.

Lemma tree_parents_keys root h : dkeys (t_parents (tree_of root h)) = firsts Nat.eqb (map a_child h).
Proof.
  induction h as [|a h IH] using rev_ind; [reflexivity|].
  rewrite tree_of_app, map_app. cbn [map t_parents tree_add]. rewrite (dkeys_dset Nat.eqb), (firsts_app _ nat_eqb_ok).
  assert (E : dmem Nat.eqb (a_child a) (t_parents (tree_of root h)) = existsb (Nat.eqb (a_child a)) (map a_child h)).
  { unfold dmem. change (dget Nat.eqb (a_child a) (t_parents (tree_of root h))) with (t_parent (tree_of root h) (a_child a)).
    rewrite tree_parent. destruct (last_reg h (a_child a)) as [[l p]|] eqn:E.
    - symmetry. apply existsb_exists. exists (a_child a). split; [|apply Nat.eqb_refl]. apply last_reg_In in E. apply (in_map a_child) in E. exact E.
    - symmetry. apply last_reg_None in E. destruct (existsb _ _) eqn:Ex; [|reflexivity]. exfalso. apply E. apply existsb_exists in Ex.
      destruct Ex as (x & Hx & Hx2). apply Nat.eqb_eq in Hx2. subst. exact Hx. }
  rewrite E, IH. reflexivity.
Qed.
Lemma tree_parents_NoDup root h : NoDup (dkeys (t_parents (tree_of root h))).
Proof. rewrite tree_parents_keys. apply NoDup_firsts. apply nat_eqb_ok. Qed.
Lemma t_iter_spec root h :
  map (fun a => Some (a_label a, a_parent a)) (t_iter (tree_of root h)) = map (last_reg h) (firsts Nat.eqb (map a_child h)) /\
  map a_child (t_iter (tree_of root h)) = firsts Nat.eqb (map a_child h).
Proof.
  rewrite <- (tree_parents_keys root). unfold t_iter, dkeys. rewrite !map_map. split; [|apply map_ext; intros [c [l p]]; reflexivity].
  apply map_ext_in. intros [c [l p]] Hin. cbn. rewrite <- (tree_parent root). symmetry. apply (In_dget _ nat_eqb_ok); [|exact Hin].
  apply tree_parents_NoDup.
Qed.
Lemma has_node_spec root h x : has_node (tree_of root h) x = true <-> exists a, In a h /\ (a_parent a = x \/ a_child a = x).
Proof.
  unfold has_node. rewrite orb_true_iff. unfold dmem.
  change (dget Nat.eqb x (t_parents (tree_of root h))) with (t_parent (tree_of root h) x).
  rewrite tree_children, tree_parent. split.
  - intros [H|H].
    + destruct (under h x) as [|[l c] us] eqn:E; [discriminate|].
      assert (Hin : In (l, c) (under h x)) by (rewrite E; left; reflexivity). unfold under in Hin.
      apply in_map_iff in Hin. destruct Hin as (a & _ & Hin). apply filter_In in Hin. destruct Hin as [Hin H1].
      apply Nat.eqb_eq in H1. exists a. auto.
    + destruct (last_reg h x) as [[l p]|] eqn:E; [|discriminate]. apply last_reg_In in E. exists (l, p, x). auto.
  - intros (a & Hin & [E|E]).
    + left. assert (Hu : In (a_label a, a_child a) (under h x)).
      { unfold under. apply in_map_iff. exists a. split; [reflexivity|]. apply filter_In. split; [exact Hin|]. apply Nat.eqb_eq. auto. }
      destruct (under h x); [destruct Hu|reflexivity].
    + right. destruct (last_reg h x) eqn:E2; [reflexivity|]. apply last_reg_None in E2. exfalso. apply E2. subst x. apply in_map. exact Hin.
Qed.

(** * ancestors_via and descendants_via on acyclic trees *)
Lemma path_trans h a b c : path h a b -> path h b c -> path h a c.
Proof. intros H1 H2. induction H1; [eapply path_more; eauto|]. eapply path_more; eauto. Qed.
Lemma lpath_path h l a b : lpath h l a b -> path h a b.
Proof. induction 1; [eapply path_one; eauto|eapply path_more; eauto]. Qed.
Lemma lpath_trans h l a b c : lpath h l a b -> lpath h l b c -> lpath h l a c.
Proof. intros H1 H2. induction H1; [eapply lpath_more; eauto|]. eapply lpath_more; eauto. Qed.
Lemma tree_parents_length root h : length (t_parents (tree_of root h)) = length (firsts Nat.eqb (map a_child h)).
Proof. rewrite <- (tree_parents_keys root). unfold dkeys. rewrite map_length. reflexivity. Qed.

Lemma Forall2_impl {A B} (P Q : A -> B -> Prop) : (forall a b, P a b -> Q a b) -> forall l1 l2, Forall2 P l1 l2 -> Forall2 Q l1 l2.
Proof. intros H l1 l2 F. induction F; constructor; auto. Qed.
Section Acyclic.
  Variable root : nat.
  Variable h : list arc.
  Hypothesis Hac : acyclic h.
  Let T := tree_of root h.
  Let keys := firsts Nat.eqb (map a_child h).

  Lemma climb_ok l fuel : forall x seen, NoDup seen -> incl seen keys ->
    (forall y, In y seen -> path h x y) -> length keys <= fuel + length seen ->
    exists anc, climb fuel T x l = Ok anc /\ up_chain h l x anc.
  Proof.
    induction fuel as [|f IH]; intros x seen Hnd Hin Hp Hl.
    - cbn [climb]. unfold T. rewrite tree_parent. destruct (last_reg h x) as [[l' p]|] eqn:E.
      + exfalso. assert (Hx : ~ In x seen) by (intros Hx; apply (Hac x); apply Hp; exact Hx).
        assert (NoDup (x :: seen)) by (constructor; assumption).
        assert (incl (x :: seen) keys).
        { intros y [<-|Hy]; [|auto]. apply (proj2 (In_firsts _ nat_eqb_ok _ _)). apply last_reg_In in E. apply (in_map a_child) in E. exact E. }
        pose proof (NoDup_incl_length H H0). cbn [length] in *. lia.
      + exists []. split; [reflexivity|]. constructor. congruence.
    - cbn [climb]. unfold T. rewrite tree_parent. destruct (last_reg h x) as [[l' p]|] eqn:E.
      + destruct (dep_eqb l' l) eqn:El.
        * apply dep_eqb_ok in El. subst l'.
          destruct (IH p (x :: seen)) as (anc & Ea & Hu).
          -- constructor; [|assumption]. intros Hx. apply (Hac x). apply Hp. exact Hx.
          -- intros y [<-|Hy]; [|auto]. apply (proj2 (In_firsts _ nat_eqb_ok _ _)). apply last_reg_In in E. apply (in_map a_child) in E. exact E.
          -- intros y [<-|Hy].
             ++ eapply path_one. eapply last_reg_In. exact E.
             ++ eapply path_more; [eapply last_reg_In; exact E|]. apply Hp. exact Hy.
          -- cbn [length]. lia.
          -- fold T. rewrite Ea. cbn [rbind]. exists (anc ++ [p]). split; [reflexivity|]. econstructor; eauto.
        * exists []. split; [reflexivity|]. constructor. intros p' E'. rewrite E in E'. injection E' as -> _.
          rewrite dep_eqb_refl in El. discriminate.
      + exists []. split; [reflexivity|]. constructor. congruence.
  Qed.
  Lemma ancestors_via_ok x l : exists anc, ancestors_via T x l = Ok anc /\ up_chain h l x anc.
  Proof.
    apply (climb_ok l _ x []); [constructor|intros y []|intros y []|].
    unfold T. rewrite tree_parents_length. cbn [length]. unfold keys. lia.
  Qed.
  Lemma up_chain_fun l x a1 : up_chain h l x a1 -> forall a2, up_chain h l x a2 -> a1 = a2.
  Proof.
    induction 1 as [x Hs|x p anc E H IH]; intros a2 H2; inversion H2; subst.
    - reflexivity.
    - exfalso. exact (Hs _ H).
    - exfalso. exact (H0 _ E).
    - rewrite E in H0. injection H0 as <-. f_equal. auto.
  Qed.

  Lemma descend_ok l fuel : forall x seen, NoDup seen -> incl seen keys ->
    (forall y, In y seen -> y = x \/ path h y x) -> (seen = [] \/ In x seen) -> length keys <= fuel + length seen ->
    exists r, descend fuel T x l = Ok r /\ (forall y, In y r <-> lpath h l x y).
  Proof.
    induction fuel as [|f IH]; intros x seen Hnd Hin Hp Hx Hl.
    - cbn [descend]. unfold T. destruct (children_via (tree_of root h) x l) as [|c cs] eqn:E.
      + exists []. split; [reflexivity|]. intros y. split; [intros []|]. intros Hy.
        assert (exists c, In (l, x, c) h) as [c Hc] by (inversion Hy; eauto).
        apply (In_children_via root) in Hc. rewrite E in Hc. exact Hc.
      + exfalso. assert (Hc : In (l, x, c) h) by (apply (In_children_via root); rewrite E; left; reflexivity).
        assert (Hns : ~ In c seen).
        { intros Hc2. destruct (Hp _ Hc2) as [->|Hpc]; [apply (Hac x); eapply path_one; eauto|].
          apply (Hac x). eapply path_more; eauto. }
        assert (NoDup (c :: seen)) by (constructor; assumption).
        assert (incl (c :: seen) keys).
        { intros y [<-|Hy]; [|auto]. apply (proj2 (In_firsts _ nat_eqb_ok _ _)). apply (in_map a_child) in Hc. exact Hc. }
        pose proof (NoDup_incl_length H H0). cbn [length] in *. lia.
    - cbn [descend].
      assert (Hc : forall c, In c (children_via T x l) -> exists r, descend f T c l = Ok r /\ (forall y, In y r <-> lpath h l c y)).
      { intros c Hc. unfold T in Hc. rewrite In_children_via in Hc. apply (IH c (c :: seen)).
        - constructor; [|assumption]. intros Hc2. destruct (Hp _ Hc2) as [->|Hpc]; [apply (Hac x); eapply path_one; eauto|].
          apply (Hac x). eapply path_more; eauto.
        - intros y [<-|Hy]; [|auto]. apply (proj2 (In_firsts _ nat_eqb_ok _ _)). apply (in_map a_child) in Hc. exact Hc.
        - intros y [<-|Hy]; [auto|]. right. destruct (Hp _ Hy) as [->|Hpy]; [eapply path_one; eauto|].
          eapply path_trans; [exact Hpy|]. eapply path_one; eauto.
        - right. left. reflexivity.
        - cbn [length]. lia. }
      set (g := fun c => match descend f T c l with Ok r => c :: r | Err _ => [] end).
      assert (EM : mapM (fun c => let! r := descend f T c l in Ok (c :: r)) (children_via T x l) = Ok (map g (children_via T x l))).
      { apply mapM_total. intros c Hcin. destruct (Hc c Hcin) as (r & Er & _). unfold g. rewrite Er. reflexivity. }
      rewrite EM. cbn [rbind]. eexists. split; [reflexivity|]. intros y. rewrite <- flat_map_concat_map, in_flat_map. split.
      + intros (c & Hcin & Hy). destruct (Hc c Hcin) as (r & Er & Hr). unfold g in Hy. rewrite Er in Hy.
        unfold T in Hcin. rewrite In_children_via in Hcin. destruct Hy as [<-|Hy]; [constructor; exact Hcin|].
        eapply lpath_more; [exact Hcin|]. apply Hr. exact Hy.
      + intros Hy. inversion Hy; subst.
        * exists y. assert (Hcin : In y (children_via T x l)) by (unfold T; rewrite In_children_via; assumption).
          split; [exact Hcin|]. destruct (Hc y Hcin) as (r & Er & Hr). unfold g. rewrite Er. left. reflexivity.
        * exists b. assert (Hcin : In b (children_via T x l)) by (unfold T; rewrite In_children_via; assumption).
          split; [exact Hcin|]. destruct (Hc b Hcin) as (r & Er & Hr). unfold g. rewrite Er. right. apply Hr. assumption.
  Qed.
  Lemma descend_mono l f : forall x r, descend f T x l = Ok r -> descend (S f) T x l = Ok r.
  Proof.
    induction f as [|f IH]; intros x r H.
    - cbn [descend] in *. destruct (children_via T x l); [injection H as <-; reflexivity|discriminate].
    - cbn [descend] in H. change (descend (S (S f)) T x l) with (let! ls := mapM (fun c => let! r := descend (S f) T c l in Ok (c :: r)) (children_via T x l) in Ok (concat ls)).
      destruct (mapM (fun c => let! l0 := descend f T c l in Ok (c :: l0)) (children_via T x l)) as [ls|] eqn:E; [|discriminate].
      cbn [rbind] in H.
      assert (E2 : mapM (fun c => let! r := descend (S f) T c l in Ok (c :: r)) (children_via T x l) = Ok ls).
      { apply mapM_Ok_Forall2. apply mapM_Ok_Forall2 in E. eapply Forall2_impl; [|exact E]. intros c y Hy. cbn beta in *.
        destruct (descend f T c l) as [r0|] eqn:E0; [|discriminate]. rewrite (IH _ _ E0). exact Hy. }
      rewrite E2. exact H.
  Qed.
  (** a bound on the fuel does not matter once it is enough *)
  Lemma descendants_via_ok x l : exists r, descendants_via T x l = Ok r /\ (forall y, In y r <-> lpath h l x y).
  Proof.
    apply (descend_ok l _ x []); [constructor|intros y []|intros y []|left; reflexivity|].
    unfold T. rewrite tree_parents_length. cbn [length]. unfold keys. lia.
  Qed.
  Definition desc_of (l : dep) (x : nat) : list nat := match descendants_via T x l with Ok r => r | Err _ => [] end.
  Lemma descendants_eq l x : desc_of l x = flat_map (fun c => c :: desc_of l c) (kids h l x).
  Proof.
    assert (E : forall y, descend (length (t_parents T)) T y l = Ok (desc_of l y)).
    { intros y. unfold desc_of. destruct (descendants_via_ok y l) as (r & Er & _). rewrite Er. exact Er. }
    pose proof (descend_mono l _ _ _ (E x)) as E2. cbn [descend] in E2.
    rewrite (mapM_total _ (fun c => c :: desc_of l c)) in E2.
    - cbn [rbind] in E2. injection E2 as E2. rewrite <- E2, <- flat_map_concat_map. unfold kids, T. rewrite children_via_spec. reflexivity.
    - intros c _. rewrite E. reflexivity.
  Qed.
End Acyclic.
