(** Nodes made from trees whose arcs were registered in two orders. *)
From Coq Require Import Ascii String.
From Coq Require Import List NArith ZArith Arith Bool Lia Permutation Sorted.
From Verif Require Import PyBase Regex MUtils MTree MNormal MNode MLangModel MSem SUtils STree SNode SArgs SSem LBase LText LTree LNode LNode2 LNode3 LSem LOrder.
Import ListNotations.
Local Open Scope nat_scope.

Definition res_rel {A B} (Rel : A -> B -> Prop) (a : res A) (b : res B) : Prop :=
  match a, b with Ok x, Ok y => Rel x y | Err e, Err e' => e = e' | _, _ => False end.
Lemma foldM_rel {A S T} (Rel : S -> T -> Prop) (f : S -> A -> res S) (g : T -> A -> res T) l :
  (forall s t x, Rel s t -> res_rel Rel (f s x) (g t x)) -> forall s t, Rel s t -> res_rel Rel (foldM f s l) (foldM g t l).
Proof.
  intros HR. induction l as [|x l IH]; intros s t Hst; cbn [foldM]; [exact Hst|].
  specialize (HR s t x Hst). destruct (f s x) as [s'|e], (g t x) as [t'|e']; cbn [res_rel rbind] in *; try contradiction; [apply IH; exact HR|exact HR].
Qed.
Lemma sorted_unique (a b : list nat) : StronglySorted le a -> StronglySorted le b -> Permutation a b -> a = b.
Proof.
  revert b; induction a as [|x a IH]; intros b Sa Sb P; [apply Permutation_nil in P; congruence|].
  destruct b as [|y b]; [symmetry in P; apply Permutation_nil in P; discriminate|].
  inversion Sa as [|? ? Sa' Fa]; subst. inversion Sb as [|? ? Sb' Fb]; subst. rewrite Forall_forall in Fa, Fb.
  assert (x = y).
  { assert (H1 : In x (y :: b)) by (apply (Permutation_in _ P); left; reflexivity).
    assert (H2 : In y (x :: a)) by (apply (Permutation_in _ (Permutation_sym P)); left; reflexivity).
    destruct H1 as [H1|H1]; [congruence|]. destruct H2 as [H2|H2]; [congruence|]. specialize (Fb x H1). specialize (Fa y H2). lia. }
  subst y. f_equal. apply IH; [assumption|assumption|]. exact (Permutation_cons_inv P).
Qed.
Lemma isort_unique (a b : list nat) : Permutation a b -> isort Nat.leb a = isort Nat.leb b.
Proof.
  intros P.
  assert (S : forall l, StronglySorted le (isort Nat.leb l)).
  { intros l. pose proof (isort_sorted Nat.leb) as K.
    assert (K' : StronglySorted (fun a b => (a <=? b) = true) (isort Nat.leb l)).
    { apply K; [intros x y; destruct (Nat.leb_spec x y); [left; reflexivity|right; apply Nat.leb_le; lia]|intros x y z; rewrite !Nat.leb_le; lia]. }
    clear K. induction K' as [|x l' _ IH F]; constructor; [exact IH|]. rewrite Forall_forall in *. intros y Hy. apply Nat.leb_le. apply F. exact Hy. }
  apply sorted_unique; [apply S|apply S|].
  rewrite <- (isort_perm Nat.leb a), P. apply isort_perm.
Qed.

Lemma filter_perm {A} (f : A -> bool) l l' : Permutation l l' -> Permutation (filter f l) (filter f l').
Proof.
  induction 1 as [|a r r' _ IH|a b r|r1 r2 r3 _ IH1 _ IH2]; cbn; [constructor| | |rewrite IH1; exact IH2].
  - destruct (f a); [constructor|]; exact IH.
  - destruct (f a), (f b); try reflexivity. apply perm_swap.
Qed.
Section Trees.
  Variables (root : nat) (h h' : list arc).
  Hypothesis HPm : Permutation h h'.
  Hypothesis HND : NoDup (map a_child h).
  Let t := tree_of root h.
  Let t' := tree_of root h'.
  Lemma pm_set : same_set h h'.
  Proof. intros x. split; [apply Permutation_in; exact HPm|apply Permutation_in; apply Permutation_sym; exact HPm]. Qed.
  Lemma pm_one : one_parent h.
  Proof.
    intros l p l' p' c H1 H2. clear HPm. induction h as [|a r IH]; [destruct H1|]. cbn in HND. inversion HND as [|? ? N1 N2]; subst.
    destruct H1 as [->|H1], H2 as [E|H2].
    - injection E as -> ->. auto.
    - exfalso. apply N1. apply (in_map a_child) in H2. exact H2.
    - subst a. exfalso. apply N1. apply (in_map a_child) in H1. exact H1.
    - apply IH; assumption.
  Qed.
  Lemma bool_iff (a b : bool) : (a = true <-> b = true) -> a = b.
  Proof. destruct a, b; intros [H1 H2]; try reflexivity; [symmetry; apply H1; reflexivity|apply H2; reflexivity]. Qed.
  Lemma tr_parent x : t_parent t' x = t_parent t x.
  Proof. unfold t, t'. rewrite !tree_parent. apply (last_reg_set h h' pm_set pm_one). Qed.
  Lemma tr_nil x : t_children_of t x = [] <-> t_children_of t' x = [].
  Proof. unfold t, t'. rewrite !children_nil. split; intros H l c Hin; apply (H l c); apply pm_set; exact Hin. Qed.
  Lemma tr_node x : has_node t' x = has_node t x.
  Proof. apply bool_iff. unfold t, t'. rewrite !has_node_spec. split; intros (a & Ha & Hx); exists a; (split; [apply pm_set; exact Ha|exact Hx]). Qed.
  Lemma tr_set x ls : has_child_via_set t' x ls = has_child_via_set t x ls.
  Proof. apply bool_iff. unfold t, t'. rewrite !has_child_via_set_spec. split; intros (l & c & Hl & Hc); exists l, c; (split; [exact Hl|apply pm_set; exact Hc]). Qed.
  Lemma firsts_NoDup_len (l : list nat) : NoDup l -> length (firsts Nat.eqb l) = length l.
  Proof.
    intros N. apply Nat.le_antisymm.
    - apply NoDup_incl_length; [apply NoDup_firsts; apply nat_eqb_ok|]. intros x Hx. apply (proj1 (In_firsts _ nat_eqb_ok _ _)) in Hx. exact Hx.
    - apply NoDup_incl_length; [exact N|]. intros x Hx. apply (proj2 (In_firsts _ nat_eqb_ok _ _)). exact Hx.
  Qed.
  Lemma tr_len : length (t_parents t') = length (t_parents t).
  Proof.
    unfold t, t'. rewrite !tree_parents_length, !firsts_NoDup_len; [rewrite !map_length; symmetry; apply Permutation_length; exact HPm|exact HND|].
    eapply Permutation_NoDup; [apply Permutation_map; exact HPm|exact HND].
  Qed.
  Lemma tr_climb l : forall fuel x, climb fuel t' x l = climb fuel t x l.
  Proof.
    induction fuel as [|f IH]; intros x; cbn [climb]; rewrite tr_parent; [reflexivity|].
    destruct (t_parent t x) as [[l' p]|]; [|reflexivity]. destruct (dep_eqb l' l); [|reflexivity]. rewrite IH. reflexivity.
  Qed.
  Lemma tr_anc x l : ancestors_via t' x l = ancestors_via t x l.
  Proof. unfold ancestors_via. rewrite tr_len. apply tr_climb. Qed.
  Lemma tr_kids l x : Permutation (kids h l x) (kids h' l x).
  Proof. unfold kids. apply Permutation_map. apply filter_perm. exact HPm. Qed.

  Section Nod.
  Variables (U : udb) (tokens : list str) (tags : list tag).
  Definition st_rel (s s' : nstate) : Prop :=
    s_next s' = s_next s /\ s_heap s' = s_heap s /\ s_dict s' = s_dict s /\ same_set (s_black s) (s_black s').
  Lemma put_rel s s' k n b b' : st_rel s s' -> same_set b b' -> st_rel (put_node s k n b) (put_node s' k n b').
  Proof.
    intros (E1 & E2 & E3 & E4) Hb. unfold put_node, st_rel. cbn. rewrite E1, E2, E3. repeat (split; [reflexivity|]).
    intros x. rewrite !in_app_iff, (E4 x), (Hb x). reflexivity.
  Qed.
  Lemma flat_rel s s' p : st_rel s s' -> res_rel st_rel (flat_step U tokens tags t s p) (flat_step U tokens tags t' s' p).
  Proof.
    intros Hs. destruct p as [idx token]. unfold flat_step. rewrite tr_parent. pose proof (tr_nil idx) as N.
    destruct (t_children_of t idx), (t_children_of t' idx); try discriminate (proj1 N eq_refl); try discriminate (proj2 N eq_refl); [|exact Hs].
    destruct (t_parent t idx) as [[d pp]|]; [|exact Hs]. destruct (dep_eqb d FLAT); [|exact Hs]. rewrite tr_anc.
    destruct (ancestors_via t idx FLAT) as [anc|e]; cbn [rbind]; [|reflexivity]. destruct (index anc 0); cbn [rbind]; [|reflexivity].
    destruct (mapM _ anc); cbn [rbind]; [|reflexivity]. destruct (index tags _); cbn [rbind]; [|reflexivity]. apply put_rel; [exact Hs|]. intros x. reflexivity.
  Qed.
  Lemma part_rel s s' p : st_rel s s' -> res_rel st_rel (part_step U tokens tags t s p) (part_step U tokens tags t' s' p).
  Proof.
    intros Hs. destruct p as [idx token]. unfold part_step. unfold t, t'. rewrite !filter_children. pose proof (tr_kids PART idx) as P.
    destruct (kids h PART idx) as [|a r] eqn:E, (kids h' PART idx) as [|a' r'] eqn:E'; [exact Hs|apply Permutation_nil in P; discriminate|symmetry in P; apply Permutation_nil in P; discriminate|].
    rewrite <- (isort_unique _ _ P). destruct (index tags _); cbn [rbind]; [|reflexivity]. destruct (foldM _ _ _); cbn [rbind]; [|reflexivity].
    apply put_rel; [exact Hs|]. intros x. split; apply Permutation_in; [exact P|symmetry; exact P].
  Qed.
  Lemma rest_rel s s' p : st_rel s s' -> res_rel st_rel (rest_step U tags s p) (rest_step U tags s' p).
  Proof.
    intros Hs. destruct p as [idx token]. unfold rest_step. pose proof Hs as (E1 & E2 & E3 & E4). rewrite E3.
    assert (B : existsb (Nat.eqb idx) (s_black s') = existsb (Nat.eqb idx) (s_black s)).
    { apply bool_iff. rewrite !existsb_exists. split; intros (x & Hx & Ex); exists x; (split; [apply E4; exact Hx|exact Ex]). }
    rewrite B. destruct (_ && _); [|exact Hs]. destruct (index tags _); cbn [rbind]; [|reflexivity]. apply put_rel; [exact Hs|]. intros x. reflexivity.
  Qed.
  Definition nod_loops (t : tree) : res nstate :=
    let s0 := {| s_next := 0; s_heap := empty_heap U; s_dict := []; s_black := nodeps tokens t |} in
    let! s1 := foldM (flat_step U tokens tags t) s0 (enumerate tokens) in
    let! s2 := foldM (part_step U tokens tags t) s1 (enumerate tokens) in
    foldM (rest_step U tags) s2 (enumerate tokens).
  Lemma loops_rel : res_rel st_rel (nod_loops t) (nod_loops t').
  Proof.
    unfold nod_loops. cbv zeta.
    set (s0 := {| s_next := 0; s_heap := empty_heap U; s_dict := []; s_black := nodeps tokens t |}).
    set (s0' := {| s_next := 0; s_heap := empty_heap U; s_dict := []; s_black := nodeps tokens t' |}).
    assert (R0 : st_rel s0 s0').
    { repeat (split; [reflexivity|]). intros x. cbn. unfold nodeps. rewrite !filter_In, tr_node. reflexivity. }
    pose proof (foldM_rel st_rel _ _ (enumerate tokens) (fun s s' p => flat_rel s s' p) s0 s0' R0) as R1.
    destruct (foldM (flat_step U tokens tags t) s0 _) as [s1|e1], (foldM (flat_step U tokens tags t') s0' _) as [s1'|e1']; cbn [res_rel rbind] in *; try contradiction; [|exact R1].
    pose proof (foldM_rel st_rel _ _ (enumerate tokens) (fun s s' p => part_rel s s' p) s1 s1' R1) as R2.
    destruct (foldM (part_step U tokens tags t) s1 _) as [s2|e2], (foldM (part_step U tokens tags t') s1' _) as [s2'|e2']; cbn [res_rel rbind] in *; try contradiction; [|exact R2].
    exact (foldM_rel st_rel _ _ (enumerate tokens) (fun s s' p => rest_rel s s' p) s2 s2' R2).
  Qed.
  Lemma nodify_unfold t0 : t_len t0 <> 1 -> nodify U tokens tags (Some t0) =
    let! s := nod_loops t0 in let! nt := node_tree t0 (s_dict s) in Ok (s_heap s, content_nodes (s_heap s) nt (s_dict s), Some nt).
  Proof.
    intros Hl. unfold nodify, nod_loops. apply Nat.eqb_neq in Hl. rewrite Hl. cbv zeta.
    destruct (foldM (flat_step U tokens tags t0) _ _) as [s1|e]; cbn [rbind]; [|reflexivity].
    destruct (foldM (part_step U tokens tags t0) _ _) as [s2|e]; cbn [rbind]; reflexivity.
  Qed.
  Lemma dget_inj (d : dict nat nat) k k' r : NoDup (dvalues d) -> dget Nat.eqb k d = Some r -> dget Nat.eqb k' d = Some r -> k = k'.
  Proof.
    intros N E1 E2. apply (dget_In _ nat_eqb_ok) in E1. apply (dget_In _ nat_eqb_ok) in E2. clear - N E1 E2.
    induction d as [|[a b] d IH]; [destruct E1|]. cbn in N. inversion N as [|? ? N1 N2]; subst. destruct E1 as [E1|E1], E2 as [E2|E2].
    - congruence.
    - injection E1 as -> ->. exfalso. apply N1. apply (in_map snd) in E2. exact E2.
    - injection E2 as -> ->. exfalso. apply N1. apply (in_map snd) in E1. exact E1.
    - apply IH; assumption.
  Qed.
  Lemma acyclic_set (a b : list arc) : same_set a b -> acyclic a -> acyclic b.
  Proof.
    intros S A x Hp. apply (A x). assert (G : forall y z, path b y z -> path a y z); [|apply G; exact Hp].
    clear - S. induction 1 as [l y z Hin|l y z w Hin _ IH]; [eapply path_one; apply S; exact Hin|eapply path_more; [apply S; exact Hin|exact IH]].
  Qed.
  Theorem nodify_same : length tags = length tokens -> parse_ok (length tokens) root h -> h <> [] ->
    exists H d rt hn hn', nodify U tokens tags (Some t) = Ok (H, d, Some (tree_of rt hn)) /\ nodify U tokens tags (Some t') = Ok (H, d, Some (tree_of rt hn')) /\
      registered rt hn = Ok (tree_of rt hn) /\ registered rt hn' = Ok (tree_of rt hn') /\ same_set hn hn' /\ one_parent hn /\ (one_kid h -> one_kid hn).
  Proof.
    intros Htags HP Hne.     destruct (nodify_spec U tokens tags root h Htags HP Hne) as (s1 & rt1 & EN & _). cbv zeta in EN.
    destruct (loops U tokens tags root h Htags HP) as (s & Es & (G1 & G2 & G3) & HM & HA). change (nod_loops t = Ok s) in Es. fold t in EN.
    pose proof loops_rel as R. rewrite Es in R. destruct (nod_loops t') as [s'|e] eqn:Es'; [|destruct R]. cbn [res_rel] in R.
    destruct R as (R1 & R2 & R3 & _).
    assert (Hl : t_len t <> 1).
    { unfold t_len. intros E. assert (length (t_parents t) = 0) by (unfold dkeys in E; rewrite map_length in E; lia).
      unfold t in H. rewrite tree_parents_length, firsts_NoDup_len in H by exact HND. rewrite map_length in H. destruct h; [congruence|discriminate]. }
    assert (Hl' : t_len t' <> 1) by (revert Hl; unfold t_len, dkeys; rewrite !map_length, tr_len; auto).
    rewrite (nodify_unfold t Hl), Es in EN. cbn [rbind] in EN.
    rewrite (nodify_unfold t Hl), (nodify_unfold t' Hl'), Es, Es'. cbn [rbind]. rewrite R2, R3. clear Es Es' R1 R2 R3 s'.
    set (d := s_dict s) in *.
    assert (Er : exists rt, dget Nat.eqb root d = Some rt).
    { unfold node_tree in EN. unfold t in EN at 1. rewrite tree_of_root in EN. destruct (dget Nat.eqb root d); [eauto|discriminate]. }
    destruct Er as (rt & Er). clear EN.
    assert (NL : forall hh, acyclic hh -> no_loop (node_arcs (tree_of root hh) d)).
    { intros hh Hac. apply Forall_forall. intros [[l r] rc] Hin. apply (In_node_arcs root hh d l r rc G1) in Hin. destruct Hin as (k & c & Ek & Ec & Hin). cbn. intros <-.
      rewrite (dget_inj d k c r G2 Ek Ec) in Hin. apply (Hac c). eapply path_one. exact Hin. }
    assert (Hac : acyclic h) by apply HP. assert (Hac' : acyclic h') by (apply (acyclic_set h); [exact pm_set|exact Hac]).
    rewrite (node_tree_eq t d rt); [|unfold t; rewrite tree_of_root; exact Er|apply NL; exact Hac].
    rewrite (node_tree_eq t' d rt); [|unfold t'; rewrite tree_of_root; exact Er|apply NL; exact Hac']. cbn [rbind].
    assert (S : same_set (node_arcs t d) (node_arcs t' d)).
    { intros [[l r] rc]. unfold t, t'. rewrite !In_node_arcs by exact G1. split; intros (k & c & E1 & E2 & Hin); exists k, c; (split; [exact E1|split; [exact E2|apply pm_set; exact Hin]]). }
    assert (O : one_parent (node_arcs t d)).
    { intros l p l' p' c H1 H2. unfold t in H1, H2. apply In_node_arcs in H1; [|exact G1]. apply In_node_arcs in H2; [|exact G1].
      destruct H1 as (k1 & c1 & A1 & A2 & A3). destruct H2 as (k2 & c2 & B1 & B2 & B3). rewrite (dget_inj d c2 c1 c G2 B2 A2) in B3.
      destruct (pm_one _ _ _ _ _ A3 B3) as [-> ->]. split; congruence. }
    assert (CE : content_nodes (s_heap s) (tree_of rt (node_arcs t' d)) d = content_nodes (s_heap s) (tree_of rt (node_arcs t d)) d).
    { unfold content_nodes. clear G2. generalize (@nil (nat * nat)) as acc. generalize (dvalues d) as vs. induction vs as [|r vs IH]; intros acc; [reflexivity|]. cbn [fold_left].
      assert (EP : has_parent_via_set (tree_of rt (node_arcs t' d)) r FUNCTIONAL_DEPS = has_parent_via_set (tree_of rt (node_arcs t d)) r FUNCTIONAL_DEPS).
      { unfold has_parent_via_set. rewrite !tree_parent, (last_reg_set _ _ S O). reflexivity. }
      rewrite EP. apply IH. }
    rewrite CE. do 5 eexists. split; [reflexivity|]. split; [reflexivity|].
    assert (RG : forall hh, no_loop hh -> registered rt hh = Ok (tree_of rt hh)) by (intros hh Hn; rewrite <- (build_ok rt hh Hn); reflexivity).
    split; [apply RG; apply NL; exact Hac|]. split; [apply RG; apply NL; exact Hac'|]. split; [exact S|]. split; [exact O|].
    intros HK l p c c' Hl1 H1 H2. unfold t in H1, H2. apply In_node_arcs in H1; [|exact G1]. apply In_node_arcs in H2; [|exact G1].
    destruct H1 as (k1 & c1 & A1 & A2 & A3). destruct H2 as (k2 & c2 & B1 & B2 & B3). rewrite (dget_inj d k2 k1 p G2 B1 A1) in B3.
    rewrite (HK l k1 c1 c2 Hl1 A3 B3) in B2. congruence.
  Qed.
  End Nod.
End Trees.
