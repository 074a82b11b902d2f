(** More proofs about syntax/nodifier.py: the trees of the parser, flat names. *)
From Coq Require Import Ascii String.
From Coq Require Import List NArith ZArith Arith Bool Lia Permutation Sorted.
From Verif Require Import PyBase Regex MUtils MTree MParser MNormal MNode SUtils STree SNode SParser LBase LText LTree LParser LNode.
Import ListNotations.
Local Open Scope nat_scope.

Lemma registered_ok root h t : acyclic h -> registered root h = Ok t -> t = tree_of root h.
Proof.
  intros Hac E. unfold registered in E. change (build root h = Ok t) in E. rewrite build_ok in E; [injection E as <-; reflexivity|].
  apply Forall_forall. intros [[l p] c] Hin. cbn. intros ->. apply (Hac c). eapply path_one. exact Hin.
Qed.
Lemma registered_of root h : acyclic h -> registered root h = Ok (tree_of root h).
Proof.
  intros Hac. change (build root h = Ok (tree_of root h)). apply build_ok.
  apply Forall_forall. intros [[l p] c] Hin. cbn. intros ->. apply (Hac c). eapply path_one. exact Hin.
Qed.

(** The trees the parser makes are parses. *)
Theorem parser_parse_ok n p0 ts p : start n p0 -> run p0 ts p ->
  length (p_tags p) = n /\
  ((build_tree p = Ok None /\ p_arcs p = []) \/
   (exists root t, p_root p = Some root /\ build_tree p = Ok (Some t) /\ registered root (p_arcs p) = Ok t /\ parse_ok n root (p_arcs p) /\ p_arcs p <> [])).
Proof.
  intros Hs Hr. destruct (parse_of_inv n p0 ts p Hs Hr) as (Hi & _ & _ & Ld & Lt & _). split; [exact Lt|].
  rewrite (build_tree_ok _ _ Hi). destruct Hi as (HC & _ & Hw). pose proof (c_acyclic _ _ _ _ HC) as Hac.
  assert (Hb : forall a, In a (p_arcs p) -> a_parent a < n /\ a_child a < n).
  { intros [[l q] c] Hin. destruct (c_arc _ _ _ _ HC l q c Hin) as (_ & A2 & A3 & _). apply Hw in A2, A3. rewrite Ld in A2, A3. cbn. auto. }
  pose proof (p_root_spec p) as HR. pose proof (p_root_None p Hac) as HN. destruct (p_root p) as [r|].
  - right. destruct HR as ((a & Ha & Hx) & HR2 & _). exists r, (tree_of r (p_arcs p)). split; [reflexivity|]. split; [reflexivity|].
    split; [apply registered_of; exact Hac|].
    assert (Hp : a_parent a = r).
    { destruct Hx as [Hx|Hx]; [exact Hx|]. exfalso. apply HR2. rewrite <- Hx. apply in_map. exact Ha. }
    split; [|intros E; rewrite E in Ha; destruct Ha].
    split; [exact Hb|]. split; [exact Hac|]. split; [rewrite <- Hp; apply Hb; exact Ha|]. split; [exact HR2|].
    intros _. rewrite <- Hp. apply in_map. exact Ha.
  - left. split; [reflexivity|]. apply HN. reflexivity.
Qed.

(** * Flat names *)
Lemma flat_chain_head h a l : flat_chain h a l -> exists r, l = a :: r.
Proof. intros H. destruct H; eauto. Qed.
Lemma flat_chain_leaf h a l : flat_chain h a l -> forall top, up_chain h FLAT a top ->
  exists anc x, top ++ l = anc ++ [x] /\ (forall l0 c, ~ In (l0, x, c) h) /\ up_chain h FLAT x anc.
Proof.
  induction 1 as [x Hx|a b l Hk Hl Hc IH]; intros top Hu.
  - exists top, x. auto.
  - destruct (flat_chain_head _ _ _ Hc) as [r ->]. destruct (IH (top ++ [a])) as (anc & x & E & Hx & Hux).
    + econstructor; eassumption.
    + exists anc, x. split; [|auto]. rewrite <- E, <- app_assoc. reflexivity.
Qed.
Lemma flat_chain_below h a l : flat_chain h a l -> forall y, lpath h FLAT a y -> In y l.
Proof.
  induction 1 as [x Hx|a b l Hk Hl Hc IH]; intros y Hy.
  - exfalso. inversion Hy; subst; eapply Hx; eassumption.
  - destruct (flat_chain_head _ _ _ Hc) as [r Er]. right.
    assert (Hb : forall c, In (FLAT, a, c) h -> c = b).
    { intros c Hin. apply kids_In in Hin. rewrite Hk in Hin. destruct Hin as [<-|[]]; reflexivity. }
    inversion Hy; subst.
    + rewrite (Hb _ H). left. reflexivity.
    + rewrite (Hb _ H) in H0. apply IH. exact H0.
Qed.
Lemma flat_chain_only_leaf h a l : flat_chain h a l -> forall y, In y l -> (forall l0 c, ~ In (l0, y, c) h) -> exists l', l = l' ++ [y].
Proof.
  induction 1 as [x Hx|a b l Hk Hl Hc IH]; intros y Hy Hn.
  - destruct Hy as [<-|[]]. exists []. reflexivity.
  - destruct Hy as [<-|Hy].
    + exfalso. assert (Hin : In b (kids h FLAT a)) by (rewrite Hk; left; reflexivity). apply kids_In in Hin. exact (Hn _ _ Hin).
    + destruct (IH y Hy Hn) as [l' ->]. exists (a :: l'). reflexivity.
Qed.

(** * What Nodifier makes, for a parse with arcs *)
Section Made.
  Variable U : udb.
  Variables (tokens : list str) (tags : list tag) (root : nat) (h : list arc) (t : tree).
  Hypothesis Htags : length tags = length tokens.
  Hypothesis HP : parse_ok (length tokens) root h.
  Hypothesis Ht : registered root h = Ok t.

  Theorem nodify_all : exists H d nt ref, nodify U tokens tags (Some t) = Ok (H, d, Some nt) /\
    NoDup (map fst d) /\ NoDup (map snd d) /\
    (forall i r, In (i, r) d -> n_idx (H r) = i /\ i < length tokens /\ (h = [] \/ takes_part h i) /\
       (forall l p, t_parent nt r = Some (l, p) -> ~ functional l) /\
       exists k, ref k = Some r /\ (h <> [] -> made U tokens tags h k (H r))) /\
    (forall k r, ref k = Some r -> (In (n_idx (H r), r) d \/ exists l p, t_parent nt r = Some (l, p) /\ functional l) /\
       (h <> [] -> made U tokens tags h k (H r))) /\
    (h <> [] -> forall k, k < length tokens -> ref k = None -> absorbed h k) /\
    (forall k c r rc l, ref k = Some r -> ref c = Some rc -> (In (l, rc) (t_children_of nt r) <-> In (l, k, c) h)) /\
    (exists rt, ref root = Some rt /\ t_root nt = rt) /\
    (exists h', registered (t_root nt) h' = Ok nt /\ acyclic h' /\
       (forall l r rc, In (l, r, rc) h' <-> exists k c, ref k = Some r /\ ref c = Some rc /\ In (l, k, c) h) /\
       (h = [] -> h' = [] /\ exists w tg, nth_error tokens root = Some w /\ nth_error tags root = Some tg /\ d = [(root, t_root nt)] /\ H (t_root nt) = new_node U root w tg)).
  Proof.
    assert (Hac : acyclic h) by apply HP. apply registered_ok in Ht; [|exact Hac]. subst t.
    assert (Hdec0 : h = [] \/ h <> []) by (destruct h; [left; reflexivity|right; discriminate]). destruct Hdec0 as [Eh|Hne].
    - subst h. destruct HP as (_ & _ & Hr & _). destruct (nth_error tokens root) as [w|] eqn:Ew; [|apply nth_error_None in Ew; lia].
      destruct (nth_error tags root) as [tg|] eqn:Eg; [|apply nth_error_None in Eg; lia].
      exists (upd (empty_heap U) 0 (new_node U root w tg)), [(root, 0)], (new_tree 0), (fun k => if k =? root then Some 0 else None).
      split. { unfold nodify. change (t_len (tree_of root []) =? 1) with true. cbn [t_root tree_of fold_left new_tree]. rewrite !index_nat, Ew, Eg. reflexivity. }
      split; [repeat constructor; intros []|]. split; [repeat constructor; intros []|]. split.
      { intros i r [E|[]]. injection E as <- <-. rewrite upd_same. cbn. split; [reflexivity|]. split; [exact Hr|]. split; [auto|]. split; [discriminate|].
        exists root. rewrite Nat.eqb_refl. split; [reflexivity|congruence]. }
      split. { intros k r E. destruct (Nat.eqb_spec k root) as [->|]; [|discriminate]. injection E as <-. split; [|congruence]. left. rewrite upd_same. left. reflexivity. }
      split; [congruence|]. split.
      { intros k c r rc l E1 E2. split; [intros []|intros []]. }
      split; [exists 0; rewrite Nat.eqb_refl; auto|].
      exists []. split; [reflexivity|]. split. { intros a Hp. inversion Hp; destruct H. }
      split. { intros l r rc. split; [intros []|]. intros (k & c & _ & _ & []). }
      intros _. split; [reflexivity|]. exists w, tg. repeat split.
    - destruct (nodify_spec U tokens tags root h Htags HP Hne) as (s & rt & E & (G1 & G2 & G3) & Er & HNL & HM & HA & HND). cbv zeta in *.
      set (d0 := s_dict s) in *. set (nt := tree_of rt (node_arcs (tree_of root h) d0)) in *.
      exists (s_heap s), (map (fun r => (n_idx (s_heap s r), r)) (filter (fun r => negb (has_parent_via_set nt r FUNCTIONAL_DEPS)) (dvalues d0))), nt, (fun k => dget Nat.eqb k d0).
      split; [exact E|].
      assert (Hdec : forall r, has_parent_via_set nt r FUNCTIONAL_DEPS = true <-> exists l p, t_parent nt r = Some (l, p) /\ functional l).
      { intros r. unfold has_parent_via_set. destruct (t_parent nt r) as [[l p]|].
        - split; [intros H; exists l, p; split; [reflexivity|apply dep_in_In in H; exact H]|]. intros (l' & p' & E' & H). injection E' as <- <-. apply dep_in_In. exact H.
        - split; [discriminate|intros (l & p & F & _); discriminate]. }
      assert (Hinj : forall k k' r, dget Nat.eqb k d0 = Some r -> dget Nat.eqb k' d0 = Some r -> k = k').
      { intros k k' r E1 E2. apply (made_idx_inj U tokens tags h Htags k k' (s_heap s r) (s_heap s r)); [apply HM; exact E1|apply HM; exact E2|reflexivity]. }
      assert (Hv : forall r, In r (dvalues d0) <-> exists k, dget Nat.eqb k d0 = Some r).
      { intros r. unfold dvalues. rewrite in_map_iff. split.
        - intros ([k r'] & E' & Hin). cbn in E'. subst r'. exists k. apply (In_dget _ nat_eqb_ok); assumption.
        - intros (k & Ek). exists (k, r). split; [reflexivity|]. apply (dget_In _ nat_eqb_ok). exact Ek. }
      split. { rewrite map_map. cbn [fst]. clear - HND. induction (dvalues d0) as [|r l IH]; [constructor|]. cbn [filter]. cbn in HND. inversion HND; subst.
               destruct (negb _); [|apply IH; assumption]. cbn. constructor; [|apply IH; assumption]. intros F. apply H1. apply in_map_iff in F.
               destruct F as (y & Ey & Hy). apply filter_In in Hy. rewrite <- Ey. apply (in_map (fun r => n_idx (s_heap s r))). apply Hy. }
      split. { rewrite map_map. cbn [snd]. rewrite map_id. apply NoDup_filter. exact G2. }
      split.
      { intros i r Hin. apply in_map_iff in Hin. destruct Hin as (r' & E' & Hr). injection E' as Ei ->. apply filter_In in Hr. destruct Hr as [Hr Hf].
        apply Hv in Hr. destruct Hr as [k Ek]. destruct (made_in_tree U tokens tags root h Htags HP k (s_heap s r) (HM k r Ek)) as (_ & Htp & Hlt). split; [exact Ei|].
        rewrite <- Ei. split; [exact Hlt|]. split; [auto|]. split; [|exists k; split; [exact Ek|intros _; apply HM; exact Ek]].
        intros l p E1 E2. apply negb_true_iff in Hf. assert (has_parent_via_set nt r FUNCTIONAL_DEPS = true) by (apply Hdec; eauto). congruence. }
      split.
      { intros k r Ek. split; [|intros _; apply HM; exact Ek]. destruct (has_parent_via_set nt r FUNCTIONAL_DEPS) eqn:Ef; [right; apply Hdec; exact Ef|]. left.
        apply in_map_iff. exists r. split; [reflexivity|]. apply filter_In. split; [apply Hv; eauto|]. rewrite Ef. reflexivity. }
      split; [intros _; exact HA|]. split.
      { intros k c r rc l Ek Ec. unfold nt. rewrite In_children_of, (In_node_arcs root h d0 l r rc G1). split.
        - intros (k' & c' & E1 & E2 & Hin). rewrite (Hinj _ _ _ Ek E1), (Hinj _ _ _ Ec E2). exact Hin.
        - intros Hin. exists k, c. auto. }
      split; [exists rt; split; [exact Er|apply tree_of_root]|].
      exists (node_arcs (tree_of root h) d0). unfold nt. rewrite tree_of_root.
      assert (HAC : acyclic (node_arcs (tree_of root h) d0)).
      { intros r Hp. assert (Hx : forall a b, path (node_arcs (tree_of root h) d0) a b -> exists k c, dget Nat.eqb k d0 = Some a /\ dget Nat.eqb c d0 = Some b /\ path h k c).
        { induction 1 as [l a b Hin|l a b c Hin Hp' IH].
          - apply (In_node_arcs root h d0 l a b G1) in Hin. destruct Hin as (k & c & Ek & Ec & Hin). exists k, c. split; [exact Ek|]. split; [exact Ec|]. eapply path_one. exact Hin.
          - apply (In_node_arcs root h d0 l a b G1) in Hin. destruct Hin as (k & k2 & Ek & Ec & Hin). destruct IH as (k3 & c3 & E3 & E4 & Hp3).
            rewrite (Hinj _ _ _ E3 Ec) in Hp3. exists k, c3. split; [exact Ek|]. split; [exact E4|]. eapply path_more; eassumption. }
        destruct (Hx r r Hp) as (k & c & Ek & Ec & Hpc). rewrite (Hinj _ _ _ Ec Ek) in Hpc. exact (Hac k Hpc). }
      split; [apply registered_of; exact HAC|]. split; [exact HAC|]. split; [intros l r rc; apply In_node_arcs; exact G1|]. congruence.
  Qed.
End Made.
