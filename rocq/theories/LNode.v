(** Proofs about syntax/nodifier.py. *)
From Coq Require Import Ascii String.
From Coq Require Import List NArith ZArith Arith Bool Lia Permutation Sorted.
From Verif Require Import PyBase Regex MUtils MTree MNormal MNode SUtils STree SNode LBase LText LTree.
Import ListNotations.
Local Open Scope nat_scope.

Lemma upd_same {A} (h : nat -> A) r v : upd h r v r = v.
Proof. unfold upd. rewrite Nat.eqb_refl. reflexivity. Qed.
Lemma upd_other {A} (h : nat -> A) r v x : x <> r -> upd h r v x = h x.
Proof. intros H. unfold upd. apply Nat.eqb_neq in H. rewrite H. reflexivity. Qed.

Lemma index_nat_ok {A} (l : list A) i d : i < length l -> index l (Z.of_nat i) = Ok (nth i l d).
Proof. intros H. rewrite index_nat, (nth_error_nth' l d H). reflexivity. Qed.

Lemma filter_labelled (f : dep -> list nat) l ls : NoDup ls ->
  map snd (filter (fun '(d, _) => dep_eqb d l) (flat_map (fun l' => map (fun c => (l', c)) (f l')) ls)) =
  if existsb (dep_eqb l) ls then f l else [].
Proof.
  induction ls as [|l' ls IH]; intros ND; [reflexivity|]. inversion ND; subst.
  cbn [flat_map existsb]. rewrite filter_app, map_app, IH by assumption.
  assert (E1 : map snd (filter (fun '(d, _) => dep_eqb d l) (map (fun c => (l', c)) (f l'))) = if dep_eqb l' l then f l' else []).
  { induction (f l') as [|c cs IHc]; [destruct (dep_eqb l' l); reflexivity|]. cbn. destruct (dep_eqb l' l) eqn:E; cbn; rewrite IHc; reflexivity. }
  rewrite E1. destruct (dep_eqb l' l) eqn:E.
  - apply dep_eqb_ok in E. subst l'. rewrite dep_eqb_refl. cbn [orb].
    destruct (existsb (dep_eqb l) ls) eqn:Ex; [|apply app_nil_r]. exfalso. apply H1. apply existsb_exists in Ex.
    destruct Ex as (y & Hy & Ey). apply dep_eqb_ok in Ey. subst. exact Hy.
  - assert (dep_eqb l l' = false) as ->; [|reflexivity]. destruct (dep_eqb l l') eqn:E2; [|reflexivity].
    apply dep_eqb_ok in E2. subst. rewrite dep_eqb_refl in E. discriminate.
Qed.
Lemma filter_children root h x l :
  map snd (filter (fun '(d, _) => dep_eqb d l) (t_children_of (tree_of root h) x)) = kids h l x.
Proof.
  rewrite children_of_spec. unfold kids. rewrite <- children_via_spec with (root := root).
  rewrite filter_labelled by (apply NoDup_firsts; apply dep_eqb_ok).
  destruct (existsb (dep_eqb l) (firsts dep_eqb (map fst (under h x)))) eqn:Ex; [reflexivity|].
  destruct (children_via (tree_of root h) x l) as [|c cs] eqn:E; [reflexivity|]. exfalso.
  assert (Hc : In c (children_via (tree_of root h) x l)) by (rewrite E; left; reflexivity). apply In_children_via in Hc.
  assert (existsb (dep_eqb l) (firsts dep_eqb (map fst (under h x))) = true); [|congruence].
  apply existsb_exists. exists l. split; [|apply dep_eqb_refl].
  apply (proj2 (In_firsts _ dep_eqb_ok _ _)). apply in_map_iff. exists (l, c). split; [reflexivity|].
  unfold under. apply in_map_iff. exists (l, x, c). split; [reflexivity|]. apply filter_In. split; [exact Hc|apply Nat.eqb_refl].
Qed.
Lemma kids_In h l x c : In c (kids h l x) <-> In (l, x, c) h.
Proof. unfold kids. rewrite <- children_via_spec with (root := 0). apply In_children_via. Qed.
Lemma children_nil root h x : t_children_of (tree_of root h) x = [] <-> forall l c, ~ In (l, x, c) h.
Proof.
  split.
  - intros E l c Hin. apply (In_children_of root) in Hin. rewrite E in Hin. exact Hin.
  - intros H. destruct (t_children_of (tree_of root h) x) as [|[l c] r] eqn:E; [reflexivity|]. exfalso. apply (H l c).
    apply (In_children_of root). rewrite E. left. reflexivity.
Qed.

(** * The state of the Nodifier *)
Definition look (s : nstate) (k : nat) : option node := option_map (s_heap s) (dget Nat.eqb k (s_dict s)).
Definition good (s : nstate) : Prop :=
  NoDup (dkeys (s_dict s)) /\ NoDup (dvalues (s_dict s)) /\ (forall r, In r (dvalues (s_dict s)) -> r < s_next s).
Lemma dvalues_dset_In (d : dict nat nat) k v w : In w (dvalues (dset Nat.eqb k v d)) -> w = v \/ In w (dvalues d).
Proof.
  unfold dvalues. rewrite in_map_iff. intros ([k' v'] & E & H). cbn in E. subst v'. apply (In_dset _ nat_eqb_ok) in H.
  destruct H as [[_ ->]|H]; [auto|]. right. apply in_map_iff. exists (k', w). auto.
Qed.
Lemma NoDup_dvalues_dset (d : dict nat nat) k v : NoDup (dvalues d) -> ~ In v (dvalues d) -> NoDup (dvalues (dset Nat.eqb k v d)).
Proof.
  induction d as [|[k' v'] d IH]; intros HN Hv; [repeat constructor; tauto|]. inversion HN; subst. cbn [dset]. destruct (k =? k').
  - cbn. constructor; [|assumption]. intros F. apply Hv. right. exact F.
  - cbn. constructor.
    + intros F. apply dvalues_dset_In in F. destruct F as [F|F]; [|contradiction]. apply Hv. left. auto.
    + apply IH; [assumption|]. intros F. apply Hv. right. exact F.
Qed.
Lemma good_put s k n bl : good s -> good (put_node s k n bl).
Proof.
  intros (H1 & H2 & H3). unfold good, put_node. cbn. split; [|split].
  - apply (NoDup_dset _ nat_eqb_ok). exact H1.
  - apply NoDup_dvalues_dset; [exact H2|]. intros F. apply H3 in F. lia.
  - intros r Hr. apply dvalues_dset_In in Hr. destruct Hr as [->|Hr]; [lia|]. apply H3 in Hr. lia.
Qed.
Lemma look_put s k n bl k' : good s -> look (put_node s k n bl) k' = if k' =? k then Some n else look s k'.
Proof.
  intros (H1 & H2 & H3). unfold look, put_node. cbn. rewrite (dget_dset _ nat_eqb_ok). destruct (k' =? k).
  - cbn. rewrite upd_same. reflexivity.
  - destruct (dget Nat.eqb k' (s_dict s)) as [r|] eqn:E; [|reflexivity]. cbn. rewrite upd_other; [reflexivity|].
    apply (dget_In _ nat_eqb_ok) in E. assert (r < s_next s); [|lia]. apply H3. apply in_map_iff. exists (k', r). auto.
Qed.
Lemma look_dict s k : look s k = None <-> dmem Nat.eqb k (s_dict s) = false.
Proof. unfold look, dmem. destruct (dget Nat.eqb k (s_dict s)); split; intros H; try discriminate; reflexivity. Qed.

Lemma up_chain_snoc h l x anc : up_chain h l x anc -> anc <> [] -> exists p anc', anc = anc' ++ [p] /\ last_reg h x = Some (l, p) /\ up_chain h l p anc'.
Proof. intros H Hn. inversion H; subst; [congruence|]. eauto. Qed.
(** the members of a chain other than its first are children *)
Lemma up_chain_members h l x anc : up_chain h l x anc -> forall y, In y anc -> (exists r, anc = y :: r) \/ exists p, last_reg h y = Some (l, p).
Proof.
  induction 1 as [x Hs|x p anc E H IH]; intros y Hy; [destruct Hy|]. apply in_app_iff in Hy. destruct Hy as [Hy|[<-|[]]].
  - destruct (IH y Hy) as [[r ->]|Hp]; [left; exists (r ++ [p]); reflexivity|right; exact Hp].
  - destruct anc as [|a r]; [left; exists []; reflexivity|]. destruct (up_chain_snoc _ _ _ _ H) as (q & anc' & Ea & Eq & _); [discriminate|].
    right. eauto.
Qed.
Lemma up_chain_bound h l x anc (n : nat) : (forall a, In a h -> a_parent a < n /\ a_child a < n) -> up_chain h l x anc -> forall y, In y anc -> y < n.
Proof.
  intros Hb. induction 1 as [x Hs|x p anc E H IH]; intros y Hy; [destruct Hy|]. apply in_app_iff in Hy. destruct Hy as [Hy|[<-|[]]]; [auto|].
  apply last_reg_In in E. apply Hb in E. apply E.
Qed.
Lemma up_chain_lpath h l x anc : up_chain h l x anc -> forall y, In y anc -> lpath h l y x.
Proof.
  induction 1 as [x Hs|x p anc E H IH]; intros y Hy; [destruct Hy|]. apply last_reg_In in E. apply in_app_iff in Hy.
  destruct Hy as [Hy|[<-|[]]]; [|apply lpath_one; exact E]. eapply lpath_trans; [apply IH; exact Hy|apply lpath_one; exact E].
Qed.

Section Nodify.
  Variable U : udb.
  Variables (tokens : list str) (tags : list tag) (root : nat) (h : list arc).
  Let n := length tokens.
  Let t := tree_of root h.
  Hypothesis Htags : length tags = n.
  Hypothesis HP : parse_ok n root h.
  Hypothesis Hne : h <> [].
  Let tok i := nth i tokens [].
  Let tg i := nth i tags TPAD.

  Let Hb : forall a, In a h -> a_parent a < n /\ a_child a < n := proj1 HP.
  Let Hac : acyclic h := proj1 (proj2 HP).

  Lemma flat_leaf_dec x : (exists anc, flat_leaf h x anc) \/ ~ exists anc, flat_leaf h x anc.
  Proof.
    destruct (ancestors_via_ok root h Hac x FLAT) as (anc & _ & Hu).
    destruct (t_children_of t x) as [|p ps] eqn:E.
    - unfold t in E; rewrite (children_nil root) in E. destruct anc as [|a anc].
      + right. intros (anc' & _ & Hu' & Hn). apply Hn. exact (up_chain_fun h FLAT x anc' Hu' [] Hu).
      + left. exists (a :: anc). repeat split; [exact E|exact Hu|discriminate].
    - right. intros (anc' & Hc & _). rewrite <- (children_nil root) in Hc. unfold t in E. congruence.
  Qed.
  Lemma flat_leaf_fun x a1 a2 : flat_leaf h x a1 -> flat_leaf h x a2 -> a1 = a2.
  Proof. intros (_ & H1 & _) (_ & H2 & _). exact (up_chain_fun h FLAT x a1 H1 a2 H2). Qed.

  Definition flat_node x anc := new_node U x (join COMPOUND_JOIN (map tok (anc ++ [x]))) (tg x).
  Definition fold_part k := fold_left (fun nd i =>
      if k <? i then set_particles nd (n_particles nd ++ [lower U (tok i)]) (n_inf_to nd)
      else if str_eqb (lower U (tok i)) (lit "to") then set_particles nd (n_particles nd) true else nd)
      (isort Nat.leb (kids h PART k)) (new_node U k (tok k) (tg k)).
  Definition plain_node k := new_node U k (tok k) (tg k).

  Lemma flat_step_eq s x w : nth_error tokens x = Some w -> 
    (exists anc k r, flat_leaf h x anc /\ anc = k :: r /\ flat_step U tokens tags t s (x, w) = Ok (put_node s k (flat_node x anc) (x :: anc))) \/
    ((~ exists anc, flat_leaf h x anc) /\ flat_step U tokens tags t s (x, w) = Ok s).
  Proof.
    intros Hw. assert (Hx : x < n) by (apply nth_error_Some; congruence).
    unfold flat_step. destruct (t_children_of t x) as [|p ps] eqn:E.
    2:{ right. split; [|destruct (t_parent t x) as [[? ?]|]; reflexivity]. intros (anc & Hc & _). rewrite <- (children_nil root) in Hc. unfold t in E. congruence. }
    unfold t in E; rewrite (children_nil root) in E. unfold t. rewrite tree_parent. destruct (last_reg h x) as [[d p]|] eqn:EL.
    2:{ right. split; [|reflexivity]. intros (anc & _ & Hu & Hn). destruct (up_chain_snoc _ _ _ _ Hu Hn) as (q & a' & _ & E1 & _). congruence. }
    destruct (dep_eqb d FLAT) eqn:Ed.
    2:{ right. split; [|reflexivity]. intros (anc & _ & Hu & Hn). destruct (up_chain_snoc _ _ _ _ Hu Hn) as (q & a' & _ & E1 & _).
        rewrite EL in E1. injection E1 as -> _. rewrite dep_eqb_refl in Ed. discriminate. }
    apply dep_eqb_ok in Ed. subst d. left.
    destruct (ancestors_via_ok root h Hac x FLAT) as (anc & Ea & Hu). rewrite Ea. cbn [rbind].
    assert (Hn : anc <> []).
    { intros ->. inversion Hu; subst; [exact (H p EL)|]. destruct anc; discriminate. }
    destruct anc as [|k r]; [congruence|]. exists (k :: r), k, r. split; [repeat split; assumption|]. split; [reflexivity|].
    change (index (k :: r) 0) with (Ok k : res nat). cbn [rbind].
    rewrite (mapM_total _ tok).
    2:{ intros y Hy. apply index_nat_ok. apply (up_chain_bound h FLAT x (k :: r) n Hb Hu y Hy). }
    cbn [rbind]. rewrite (index_nat_ok tags x TPAD) by (rewrite Htags; exact Hx). cbn [rbind]. unfold flat_node. rewrite map_app. cbn [map].
    replace (tok x) with w; [reflexivity|]. symmetry. apply nth_error_nth. exact Hw.
  Qed.

  Lemma flat_loop l : forall s, good s -> (forall x w, In (x, w) l -> nth_error tokens x = Some w) ->
    exists s', foldM (flat_step U tokens tags t) s l = Ok s' /\ good s' /\
      (forall k, (exists x r, In x (map fst l) /\ flat_leaf h x (k :: r) /\ look s' k = Some (flat_node x (k :: r))) \/
                 ((forall x r, In x (map fst l) -> ~ flat_leaf h x (k :: r)) /\ look s' k = look s k)) /\
      (forall i, In i (s_black s') <-> In i (s_black s) \/ exists x anc, In x (map fst l) /\ flat_leaf h x anc /\ In i (x :: anc)).
  Proof.
    induction l as [|[x w] l IH]; intros s Hg Hl.
    - exists s. cbn. split; [reflexivity|]. split; [exact Hg|]. split.
      + intros k. right. split; [tauto|reflexivity].
      + intros i. split; [auto|]. intros [H|(x & anc & [] & _)]. exact H.
    - cbn [foldM map fst]. destruct (flat_step_eq s x w) as [(anc & k0 & r0 & HF & Ea & ->)|[HF ->]]; [apply Hl; left; reflexivity| |]; cbn [rbind].
      + destruct (IH (put_node s k0 (flat_node x anc) (x :: anc))) as (s' & E & Hg' & Hlk & Hbl); [apply good_put; exact Hg|intros; apply Hl; right; assumption|].
        exists s'. split; [exact E|]. split; [exact Hg'|]. split.
        * intros k. destruct (Hlk k) as [(y & r & Hy & HFy & Ey)|[Hno Ey]].
          -- left. exists y, r. split; [right; exact Hy|auto].
          -- rewrite look_put in Ey by exact Hg. destruct (Nat.eqb_spec k k0) as [->|Hk].
             ++ left. exists x, r0. subst anc. split; [left; reflexivity|]. auto.
             ++ right. split; [|exact Ey]. intros y r [<-|Hy] HFy; [|exact (Hno y r Hy HFy)]. pose proof (flat_leaf_fun _ _ _ HF HFy). congruence.
        * intros i. rewrite Hbl. cbn [put_node s_black]. rewrite in_app_iff. split.
          -- intros [[H|H]|(y & a & Hy & HFy & Hi)]; [auto| |].
             ++ right. exists x, anc. split; [left; reflexivity|]. auto.
             ++ right. exists y, a. split; [right; exact Hy|]. auto.
          -- intros [H|(y & a & [<-|Hy] & HFy & Hi)]; [auto| |].
             ++ rewrite (flat_leaf_fun _ _ _ HFy HF) in Hi. auto.
             ++ right. exists y, a. auto.
      + destruct (IH s Hg) as (s' & E & Hg' & Hlk & Hbl); [intros; apply Hl; right; assumption|].
        exists s'. split; [exact E|]. split; [exact Hg'|]. split.
        * intros k. destruct (Hlk k) as [(y & r & Hy & HFy & Ey)|[Hno Ey]].
          -- left. exists y, r. split; [right; exact Hy|auto].
          -- right. split; [|exact Ey]. intros y r [<-|Hy] HFy; [apply HF; eauto|exact (Hno y r Hy HFy)].
        * intros i. rewrite Hbl. split.
          -- intros [H|(y & a & Hy & HFy & Hi)]; [auto|]. right. exists y, a. split; [right; exact Hy|auto].
          -- intros [H|(y & a & [<-|Hy] & HFy & Hi)]; [auto| |]; [exfalso; apply HF; eauto|]. right. exists y, a. auto.
  Qed.

  Lemma part_step_eq s x w : nth_error tokens x = Some w ->
    part_step U tokens tags t s (x, w) = Ok (if nonempty (kids h PART x) then put_node s x (fold_part x) (kids h PART x) else s).
  Proof.
    intros Hw. assert (Hx : x < n) by (apply nth_error_Some; congruence).
    unfold part_step. unfold t. rewrite filter_children. destruct (kids h PART x) as [|p ps] eqn:E; [reflexivity|]. cbn [nonempty]. rewrite <- E.
    rewrite (index_nat_ok tags x TPAD) by (rewrite Htags; exact Hx). cbn [rbind].
    assert (HI : forall i, In i (isort Nat.leb (kids h PART x)) -> i < n).
    { intros i Hi. apply (Permutation_in _ (Permutation_sym (isort_perm Nat.leb _))) in Hi. apply kids_In in Hi. apply Hb in Hi. apply Hi. }
    unfold fold_part. replace (tok x) with w by (symmetry; apply nth_error_nth; exact Hw).
    fold (tg x). revert HI. generalize (isort Nat.leb (kids h PART x)) as is. generalize (new_node U x w (tg x)) as nd.
    assert (G : forall is nd, (forall i, In i is -> i < n) ->
      foldM (fun n0 i => let! tok0 := index tokens (Z.of_nat i) in
          Ok (if x <? i then set_particles n0 (n_particles n0 ++ [lower U tok0]) (n_inf_to n0)
              else if str_eqb (lower U tok0) (lit "to") then set_particles n0 (n_particles n0) true else n0)) nd is =
      Ok (fold_left (fun nd i => if x <? i then set_particles nd (n_particles nd ++ [lower U (tok i)]) (n_inf_to nd)
      else if str_eqb (lower U (tok i)) (lit "to") then set_particles nd (n_particles nd) true else nd) is nd)).
    { induction is as [|i is IH]; intros nd HI; [reflexivity|]. cbn [foldM fold_left]. rewrite (index_nat_ok tokens i []) by (apply HI; left; reflexivity).
      cbn [rbind]. apply IH. intros j Hj. apply HI. right. exact Hj. }
    intros nd is HI. rewrite G by exact HI. reflexivity.
  Qed.
  Lemma part_loop l : forall s, good s -> (forall x w, In (x, w) l -> nth_error tokens x = Some w) ->
    exists s', foldM (part_step U tokens tags t) s l = Ok s' /\ good s' /\
      (forall k, In k (map fst l) /\ kids h PART k <> [] /\ look s' k = Some (fold_part k) \/
                 ((In k (map fst l) -> kids h PART k = []) /\ look s' k = look s k)) /\
      (forall i, In i (s_black s') <-> In i (s_black s) \/ exists x, In x (map fst l) /\ In (PART, x, i) h).
  Proof.
    induction l as [|[x w] l IH]; intros s Hg Hl.
    - exists s. cbn. split; [reflexivity|]. split; [exact Hg|]. split; [intros k; right; split; [tauto|reflexivity]|]. intros i. split; [auto|]. intros [H|(x & [] & _)]. exact H.
    - cbn [foldM map fst]. rewrite (part_step_eq s x w) by (apply Hl; left; reflexivity). cbn [rbind].
      set (s1 := if nonempty (kids h PART x) then put_node s x (fold_part x) (kids h PART x) else s).
      assert (Hg1 : good s1) by (unfold s1; destruct (nonempty _); [apply good_put|]; exact Hg).
      destruct (IH s1 Hg1) as (s' & E & Hg' & Hlk & Hbl); [intros; apply Hl; right; assumption|].
      exists s'. split; [exact E|]. split; [exact Hg'|]. split.
      + intros k. destruct (Hlk k) as [(Hk & HK & Ek)|[Hk Ek]]; [left; split; [right; exact Hk|auto]|].
        unfold s1 in Ek. destruct (Nat.eq_dec k x) as [->|Hkx].
        * destruct (kids h PART x) as [|c cs] eqn:EK; cbn [nonempty] in Ek.
          -- right. split; [reflexivity|exact Ek].
          -- left. split; [left; reflexivity|]. split; [discriminate|]. rewrite Ek, look_put, Nat.eqb_refl by exact Hg. reflexivity.
        * right. split; [intros [F|F]; [congruence|auto]|]. rewrite Ek. destruct (nonempty (kids h PART x)); [|reflexivity].
          rewrite look_put by exact Hg. apply Nat.eqb_neq in Hkx. rewrite Hkx. reflexivity.
      + intros i. rewrite Hbl. assert (Hs1 : In i (s_black s1) <-> In i (s_black s) \/ In (PART, x, i) h).
        { unfold s1. rewrite <- kids_In. destruct (kids h PART x) as [|c cs] eqn:EK; cbn [nonempty put_node s_black].
          - split; [auto|intros [H|[]]; exact H].
          - apply in_app_iff. }
        rewrite Hs1. split.
        * intros [[H|H]|(y & Hy & Hi)]; [auto| |]; right; [exists x; split; [left; reflexivity|exact H]|exists y; split; [right; exact Hy|exact Hi]].
        * intros [H|(y & [<-|Hy] & Hi)]; [auto|auto|]. right. exists y. auto.
  Qed.

  Lemma rest_step_eq s x w : nth_error tokens x = Some w ->
    rest_step U tags s (x, w) = Ok (if negb (dmem Nat.eqb x (s_dict s)) && negb (existsb (Nat.eqb x) (s_black s)) then put_node s x (plain_node x) [] else s).
  Proof.
    intros Hw. assert (Hx : x < n) by (apply nth_error_Some; congruence). unfold rest_step. destruct (_ && _); [|reflexivity].
    rewrite (index_nat_ok tags x TPAD) by (rewrite Htags; exact Hx). cbn [rbind]. unfold plain_node.
    replace (tok x) with w by (symmetry; apply nth_error_nth; exact Hw). reflexivity.
  Qed.
  Lemma existsb_nat x l : existsb (Nat.eqb x) l = true <-> In x l.
  Proof. rewrite existsb_exists. split; [intros (y & Hy & E); apply Nat.eqb_eq in E; subst; exact Hy|intros H; exists x; split; [exact H|apply Nat.eqb_refl]]. Qed.
  Lemma rest_loop l : forall s, good s -> (forall x w, In (x, w) l -> nth_error tokens x = Some w) ->
    exists s', foldM (rest_step U tags) s l = Ok s' /\ good s' /\
      (forall k, (look s k <> None /\ look s' k = look s k) \/
                 (look s k = None /\ In k (map fst l) /\ ~ In k (s_black s) /\ look s' k = Some (plain_node k)) \/
                 (look s k = None /\ (~ In k (map fst l) \/ In k (s_black s)) /\ look s' k = None)).
  Proof.
    induction l as [|[x w] l IH]; intros s Hg Hl.
    - exists s. cbn. split; [reflexivity|]. split; [exact Hg|]. intros k. destruct (look s k) eqn:E; [left; split; [discriminate|reflexivity]|right; right; auto].
    - cbn [foldM map fst]. rewrite (rest_step_eq s x w) by (apply Hl; left; reflexivity). cbn [rbind].
      destruct (negb (dmem Nat.eqb x (s_dict s)) && negb (existsb (Nat.eqb x) (s_black s))) eqn:EC.
      + apply andb_true_iff in EC. destruct EC as [E1 E2]. apply negb_true_iff in E1, E2. apply look_dict in E1.
        assert (Hx : ~ In x (s_black s)) by (rewrite <- existsb_nat; congruence).
        destruct (IH (put_node s x (plain_node x) [])) as (s' & E & Hg' & Hlk); [apply good_put; exact Hg|intros; apply Hl; right; assumption|].
        exists s'. split; [exact E|]. split; [exact Hg'|]. intros k. specialize (Hlk k). rewrite look_put in Hlk by exact Hg.
        cbn [put_node s_black] in Hlk. rewrite app_nil_r in Hlk. destruct (Nat.eqb_spec k x) as [Ekx|Hkx]; [subst k|].
        * right. left. destruct Hlk as [[_ H]|[[H _]|[H _]]]; [|discriminate H|discriminate H]. split; [exact E1|]. split; [left; reflexivity|]. split; [exact Hx|exact H].
        * destruct Hlk as [H|[(H1 & H2 & H3)|(H1 & H2 & H3)]]; [left; exact H|right; left|right; right].
          -- split; [exact H1|]. split; [right; exact H2|exact H3].
          -- split; [exact H1|]. split; [|exact H3]. destruct H2 as [H2|H2]; [|auto]. left. intros [F|F]; [congruence|auto].
      + destruct (IH s Hg) as (s' & E & Hg' & Hlk); [intros; apply Hl; right; assumption|].
        exists s'. split; [exact E|]. split; [exact Hg'|]. intros k. destruct (Hlk k) as [H|[(H1 & H2 & H3)|(H1 & H2 & H3)]]; [left; exact H|right; left|right; right].
        * split; [exact H1|]. split; [right; exact H2|exact H3].
        * split; [exact H1|]. split; [|exact H3]. destruct H2 as [H2|H2]; [|auto].
          destruct (Nat.eq_dec k x) as [->|Hkx]; [|left; intros [F|F]; [congruence|auto]].
          right. apply look_dict in H1. rewrite H1 in EC. cbn in EC. apply negb_false_iff in EC. apply existsb_nat in EC. exact EC.
  Qed.

  Inductive made : nat -> node -> Prop :=
  | made_part : forall k, k < n -> kids h PART k <> [] -> made k (fold_part k)
  | made_flat : forall k x r, kids h PART k = [] -> flat_leaf h x (k :: r) -> made k (flat_node x (k :: r))
  | made_plain : forall k, k < n -> takes_part h k -> kids h PART k = [] -> (forall x anc, flat_leaf h x anc -> ~ In k (x :: anc)) ->
      (forall p, ~ In (PART, p, k) h) -> made k (plain_node k).
  (** tokens without node *)
  Definition absorbed (k : nat) : Prop :=
    (forall x r, ~ flat_leaf h x (k :: r)) /\ kids h PART k = [] /\
    (~ takes_part h k \/ (exists x a r, flat_leaf h x (a :: r) /\ In k (x :: r)) \/ (exists p, In (PART, p, k) h)).

  Lemma enumerate_nth x w : In (x, w) (enumerate tokens) <-> nth_error tokens x = Some w.
  Proof.
    unfold enumerate. rewrite In_enum_from. rewrite Nat.sub_0_r. split; [tauto|]. intros H. split; [lia|exact H].
  Qed.
  Lemma enumerate_fst x : In x (map fst (enumerate tokens)) <-> x < n.
  Proof. unfold enumerate. rewrite enum_from_fst, in_seq. unfold n. lia. Qed.

  Lemma flat_leaf_bound x anc : flat_leaf h x anc -> x < n /\ forall y, In y anc -> y < n.
  Proof.
    intros (_ & Hu & Hn). split; [|apply (up_chain_bound h FLAT x anc n Hb Hu)]. destruct (up_chain_snoc _ _ _ _ Hu Hn) as (p & a & _ & E & _).
    apply last_reg_In in E. apply Hb in E. apply E.
  Qed.

  Lemma loops : exists s, (let s0 := {| s_next := 0; s_heap := empty_heap U; s_dict := []; s_black := nodeps tokens t |} in
      let! s1 := foldM (flat_step U tokens tags t) s0 (enumerate tokens) in
      let! s2 := foldM (part_step U tokens tags t) s1 (enumerate tokens) in
      foldM (rest_step U tags) s2 (enumerate tokens)) = Ok s /\ good s /\
    (forall k nd, look s k = Some nd -> made k nd) /\
    (forall k, k < n -> look s k = None -> absorbed k).
  Proof.
    cbv zeta. set (s0 := {| s_next := 0; s_heap := empty_heap U; s_dict := []; s_black := nodeps tokens t |}).
    assert (Hg0 : good s0) by (repeat split; [constructor|constructor|intros r []]).
    assert (HE : forall x w, In (x, w) (enumerate tokens) -> nth_error tokens x = Some w) by (intros x w; apply enumerate_nth).
    assert (Hb0 : forall i, In i (s_black s0) <-> i < n /\ ~ takes_part h i).
    { intros i. cbn [s0 s_black]. unfold nodeps. rewrite filter_In, in_seq. unfold takes_part. rewrite <- (has_node_spec root). fold t. unfold n.
      destruct (has_node t i); cbn; intuition (congruence || lia). }
    destruct (flat_loop (enumerate tokens) s0 Hg0 HE) as (s1 & -> & Hg1 & Hl1 & Hb1). cbn [rbind].
    destruct (part_loop (enumerate tokens) s1 Hg1 HE) as (s2 & -> & Hg2 & Hl2 & Hb2). cbn [rbind].
    destruct (rest_loop (enumerate tokens) s2 Hg2 HE) as (s3 & -> & Hg3 & Hl3). exists s3. split; [reflexivity|]. split; [exact Hg3|].
    assert (Hk1 : forall k, kids h PART k <> [] -> k < n).
    { intros k H. destruct (kids h PART k) as [|c cs] eqn:E; [congruence|]. assert (Hc : In c (kids h PART k)) by (rewrite E; left; reflexivity).
      apply kids_In in Hc. apply Hb in Hc. apply Hc. }
    assert (Hnil : forall k, (In k (map fst (enumerate tokens)) -> kids h PART k = []) -> kids h PART k = []).
    { intros k H. destruct (kids h PART k) as [|c cs] eqn:E; [reflexivity|]. exfalso. assert (k < n) by (apply Hk1; rewrite E; discriminate).
      apply enumerate_fst in H0. discriminate (H H0). }
    assert (Hblack : forall i, In i (s_black s2) <-> (i < n /\ ~ takes_part h i) \/ (exists x anc, flat_leaf h x anc /\ In i (x :: anc)) \/ exists p, In (PART, p, i) h).
    { intros i. rewrite Hb2, Hb1, Hb0. split.
      - intros [[H|(x & anc & _ & H)]|(x & _ & H)]; [auto|right; left; exists x, anc; exact H|right; right; exists x; exact H].
      - intros [H|[(x & anc & HF & H)|(x & H)]]; [auto| |].
        + left. right. exists x, anc. split; [apply enumerate_fst; apply (proj1 (flat_leaf_bound x anc HF))|split; [exact HF|exact H]].
        + right. exists x. split; [apply enumerate_fst; apply Hb in H; apply H|exact H]. }
    split.
    - intros k nd E3. destruct (Hl3 k) as [[Hs E]|[(E2 & Hk & Hbl & E)|(E2 & Hk & E)]]; rewrite E in E3; [|injection E3 as <-|discriminate].
      + destruct (Hl2 k) as [(Hk & HK & E2)|[Hk E2]]; rewrite E2 in E3.
        * injection E3 as <-. apply made_part; [apply enumerate_fst; exact Hk|exact HK].
        * destruct (Hl1 k) as [(x & r & Hx & HF & E1)|[_ E1]]; rewrite E1 in E3.
          -- injection E3 as <-. apply made_flat; [apply Hnil; exact Hk|exact HF].
          -- cbn in E3. discriminate.
      + destruct (Hl2 k) as [(Hk' & HK & E2')|[Hk' E2']]; [congruence|].
        rewrite Hblack in Hbl. apply made_plain.
        * apply enumerate_fst. exact Hk.
        * unfold takes_part. apply (proj1 (has_node_spec root h k)). destruct (has_node (tree_of root h) k) eqn:EH; [reflexivity|]. exfalso. apply Hbl. left.
          split; [apply enumerate_fst; exact Hk|]. intros F. apply (proj2 (has_node_spec root h k)) in F. congruence.
        * apply Hnil. exact Hk'.
        * intros x anc HF Hi. apply Hbl. right. left. exists x, anc. auto.
        * intros p Hp. apply Hbl. right. right. exists p. exact Hp.
    - intros k Hk E3. destruct (Hl3 k) as [[Hs E]|[(E2 & Hk2 & Hbl & E)|(E2 & Hbl & E)]]; [congruence|congruence|].
      destruct Hbl as [Hbl|Hbl]; [exfalso; apply Hbl; apply enumerate_fst; exact Hk|]. apply Hblack in Hbl.
      destruct (Hl2 k) as [(_ & _ & E2')|[HK2 E2']]; [congruence|]. destruct (Hl1 k) as [(y & r' & _ & _ & E1')|[HF1 _]]; [congruence|].
      split; [intros x r HF; apply (HF1 x r); [apply enumerate_fst; apply (proj1 (flat_leaf_bound x (k :: r) HF))|exact HF]|].
      split; [apply Hnil; exact HK2|].
      destruct Hbl as [[_ H]|[(x & anc & HF & Hi)|H]]; [left; exact H| |right; right; exact H].
      right. left. destruct anc as [|a r]; [destruct HF as (_ & _ & F); congruence|]. exists x, a, r. split; [exact HF|].
      destruct Hi as [Hi|[<-|Hi]]; [left; exact Hi| |right; exact Hi].
      exfalso. destruct (Hl2 a) as [(_ & _ & E')|[_ E']]; [congruence|]. destruct (Hl1 a) as [(y & r' & _ & _ & E'')|[H _]]; [congruence|].
      apply (H x r); [|exact HF]. apply enumerate_fst. apply (proj1 (flat_leaf_bound x (a :: r) HF)).
  Qed.
End Nodify.

(** * The tree of nodes *)
Definition node_arcs (t : tree) (d : dict nat nat) : list arc :=
  flat_map (fun '(k, r) => flat_map (fun '(l, c) => match dget Nat.eqb c d with Some rc => [(l, r, rc)] | None => [] end) (t_children_of t k)) d.
Lemma In_node_arcs root h d l r rc : NoDup (dkeys d) ->
  In (l, r, rc) (node_arcs (tree_of root h) d) <-> exists k c, dget Nat.eqb k d = Some r /\ dget Nat.eqb c d = Some rc /\ In (l, k, c) h.
Proof.
  intros ND. unfold node_arcs. rewrite in_flat_map. split.
  - intros ([k r'] & Hk & H). apply in_flat_map in H. destruct H as ([l' c] & Hc & H). apply In_children_of in Hc.
    destruct (dget Nat.eqb c d) as [rc'|] eqn:E; [|destruct H]. destruct H as [H|[]]. injection H as -> -> ->.
    exists k, c. split; [|auto]. apply (In_dget _ nat_eqb_ok); assumption.
  - intros (k & c & Ek & Ec & H). exists (k, r). split; [apply (dget_In _ nat_eqb_ok); exact Ek|]. apply in_flat_map.
    exists (l, c). split; [apply In_children_of; exact H|]. rewrite Ec. left. reflexivity.
Qed.
Lemma node_tree_eq t d rt : dget Nat.eqb (t_root t) d = Some rt -> no_loop (node_arcs t d) -> node_tree t d = Ok (tree_of rt (node_arcs t d)).
Proof.
  intros Er HN. unfold node_tree. rewrite Er. cbn [of_option rbind]. rewrite <- build_ok by exact HN. unfold build.
  generalize (new_tree rt) as nt. unfold node_arcs. clear HN.
  assert (G : forall (l : list (nat * nat)) nt,
    foldM (fun nt '(idx, r) => foldM (fun nt0 '(l, c) => match dget Nat.eqb c d with Some rc => register_child nt0 l r rc | None => Ok nt0 end) nt (t_children_of t idx)) nt l =
    foldM (fun t0 '(l0, p, c) => register_child t0 l0 p c) nt (flat_map (fun '(k, r) => flat_map (fun '(l, c) => match dget Nat.eqb c d with Some rc => [(l, r, rc)] | None => [] end) (t_children_of t k)) l)).
  { induction l as [|[k r] l IH]; intros nt; [reflexivity|]. cbn [foldM flat_map]. rewrite foldM_app.
    assert (G2 : forall cs nt,
      foldM (fun nt0 '(l, c) => match dget Nat.eqb c d with Some rc => register_child nt0 l r rc | None => Ok nt0 end) nt cs =
      foldM (fun t0 '(l0, p, c) => register_child t0 l0 p c) nt (flat_map (fun '(l, c) => match dget Nat.eqb c d with Some rc => [(l, r, rc)] | None => [] end) cs)).
    { induction cs as [|[l' c] cs IHc]; intros nt0; [reflexivity|]. cbn [foldM flat_map]. destruct (dget Nat.eqb c d) as [rc|].
      - cbn [app foldM]. destruct (register_child nt0 l' r rc); cbn [rbind]; [apply IHc|reflexivity].
      - cbn [app rbind]. apply IHc. }
    rewrite G2. destruct (foldM _ nt _); cbn [rbind]; [apply IH|reflexivity]. }
  intros nt. apply G.
Qed.
Lemma content_eq H nt (d : dict nat nat) : NoDup (map (fun r => n_idx (H r)) (dvalues d)) ->
  content_nodes H nt d = map (fun r => (n_idx (H r), r)) (filter (fun r => negb (has_parent_via_set nt r FUNCTIONAL_DEPS)) (dvalues d)).
Proof.
  unfold content_nodes. intros ND.
  assert (G : forall l acc, NoDup (map (fun r => n_idx (H r)) l) -> (forall r, In r l -> dget Nat.eqb (n_idx (H r)) acc = None) ->
    fold_left (fun acc r => if has_parent_via_set nt r FUNCTIONAL_DEPS then acc else dset Nat.eqb (n_idx (H r)) r acc) l acc =
    acc ++ map (fun r => (n_idx (H r), r)) (filter (fun r => negb (has_parent_via_set nt r FUNCTIONAL_DEPS)) l)).
  { induction l as [|r l IH]; intros acc HN Ha; [symmetry; apply app_nil_r|]. cbn [fold_left filter map]. cbn [map] in HN. inversion HN; subst.
    destruct (has_parent_via_set nt r FUNCTIONAL_DEPS); cbn [negb].
    - apply IH; [assumption|]. intros r' Hr'. apply Ha. right. exact Hr'.
    - rewrite (dset_new Nat.eqb) by (apply Ha; left; reflexivity). cbn [map]. rewrite IH; [rewrite <- app_assoc; reflexivity|assumption|].
      intros r' Hr'. specialize (Ha r' (or_intror Hr')).
      assert (Hne : n_idx (H r') <> n_idx (H r)) by (intros E; apply H2; rewrite <- E; apply (in_map (fun r => n_idx (H r))); exact Hr').
      clear - Ha Hne. induction acc as [|[k v] acc IHa]; cbn in *; [apply Nat.eqb_neq in Hne; rewrite Hne; reflexivity|].
      destruct (n_idx (H r') =? k); [discriminate|auto]. }
  rewrite G; [reflexivity|exact ND|reflexivity].
Qed.

Lemma kids_nonempty h l x : kids h l x <> [] <-> exists c, In (l, x, c) h.
Proof.
  split.
  - destruct (kids h l x) as [|c cs] eqn:E; [congruence|]. intros _. exists c. apply kids_In. rewrite E. left. reflexivity.
  - intros (c & Hc) E. apply kids_In in Hc. rewrite E in Hc. exact Hc.
Qed.

Section Nodify2.
  Variable U : udb.
  Variables (tokens : list str) (tags : list tag) (root : nat) (h : list arc).
  Let n := length tokens.
  Let t := tree_of root h.
  Hypothesis Htags : length tags = n.
  Hypothesis HP : parse_ok n root h.
  Hypothesis Hne : h <> [].
  Let mk : nat -> node -> Prop := made U tokens tags h.

  Lemma fold_part_fields k : let nd := fold_part U tokens tags h k in
    n_idx nd = k /\ n_original nd = nth k tokens [] /\ n_tag nd = nth k tags TPAD /\
    n_particles nd = map (fun i => lower U (nth i tokens [])) (filter (Nat.ltb k) (isort Nat.leb (kids h PART k))) /\
    (n_inf_to nd = true <-> exists i, In (PART, k, i) h /\ i <= k /\ lower U (nth i tokens []) = lit "to") /\
    n_standard nd = lower U (nth k tokens []) /\ n_lemma nd = lower U (nth k tokens []) /\ n_suffix nd = None /\ n_chunk nd = None /\
    n_canon nd = lower U (nth k tokens []) /\ n_active nd = None.
  Proof.
    cbv zeta. unfold fold_part.
    assert (G : forall is nd, let nd' := fold_left (fun nd i =>
      if k <? i then set_particles nd (n_particles nd ++ [lower U (nth i tokens [])]) (n_inf_to nd)
      else if str_eqb (lower U (nth i tokens [])) (lit "to") then set_particles nd (n_particles nd) true else nd) is nd in
      n_idx nd' = n_idx nd /\ n_original nd' = n_original nd /\ n_tag nd' = n_tag nd /\
      n_particles nd' = n_particles nd ++ map (fun i => lower U (nth i tokens [])) (filter (Nat.ltb k) is) /\
      (n_inf_to nd' = true <-> n_inf_to nd = true \/ exists i, In i is /\ i <= k /\ lower U (nth i tokens []) = lit "to") /\
      n_standard nd' = n_standard nd /\ n_lemma nd' = n_lemma nd /\ n_suffix nd' = n_suffix nd /\ n_chunk nd' = n_chunk nd /\
      n_canon nd' = n_canon nd /\ n_active nd' = n_active nd).
    { induction is as [|i is IH]; intros nd; cbv zeta; cbn [fold_left filter map].
      - rewrite app_nil_r. repeat split; [auto|]. intros [H|(i & [] & _)]. exact H.
      - match goal with |- context [fold_left _ is ?x] => specialize (IH x) end. cbv zeta in IH.
        destruct IH as (I1 & I2 & I3 & I4 & I5 & I6). rewrite I1, I2, I3, I4. destruct (Nat.ltb_spec k i) as [Hk|Hk].
        + cbn [set_particles n_idx n_original n_tag n_particles n_inf_to n_standard n_lemma n_suffix n_chunk n_canon n_active] in *.
          rewrite <- app_assoc. repeat (split; [reflexivity|]). split; [|exact I6]. rewrite I5. split.
          * intros [H|(j & Hj & H)]; [auto|]. right. exists j. split; [right; exact Hj|exact H].
          * intros [H|(j & [<-|Hj] & H)]; [auto|lia|]. right. exists j. auto.
        + destruct (str_eqb (lower U (nth i tokens [])) (lit "to")) eqn:E.
          * apply str_eqb_eq in E. cbn [set_particles n_idx n_original n_tag n_particles n_inf_to n_standard n_lemma n_suffix n_chunk n_canon n_active] in *.
            repeat (split; [reflexivity|]). split; [|exact I6]. rewrite I5. split; [|auto]. intros _. right. exists i. split; [left; reflexivity|auto].
          * repeat (split; [reflexivity|]). split; [|exact I6]. rewrite I5. split.
            -- intros [H|(j & Hj & H)]; [auto|]. right. exists j. split; [right; exact Hj|exact H].
            -- intros [H|(j & [<-|Hj] & H1 & H2)]; [auto| |].
               ++ rewrite H2 in E. exfalso. rewrite str_eqb_refl in E. discriminate.
               ++ right. exists j. auto. }
    match goal with |- context [fold_left _ ?is ?x] => specialize (G is x) end. cbv zeta in G.
    destruct G as (I1 & I2 & I3 & I4 & I5 & I6). split; [exact I1|]. split; [exact I2|]. split; [exact I3|]. split; [exact I4|].
    split; [|exact I6]. rewrite I5. cbn [new_node n_inf_to]. split.
    - intros [H|(i & Hi & H)]; [discriminate|]. exists i. split; [|exact H]. apply kids_In. apply (Permutation_in _ (Permutation_sym (isort_perm Nat.leb _))). exact Hi.
    - intros (i & Hi & H). right. exists i. split; [|exact H]. apply kids_In in Hi. apply (Permutation_in _ (isort_perm Nat.leb _)). exact Hi.
  Qed.

  Lemma made_idx k nd : mk k nd -> (n_idx nd = k /\ k < n) \/ exists r, flat_leaf h (n_idx nd) (k :: r) /\ kids h PART k = [].
  Proof.
    intros H. destruct H as [k Hk HK|k x r HK HF|k Hk]; [left|right|left].
    - split; [apply fold_part_fields|exact Hk].
    - exists r. split; [exact HF|exact HK].
    - split; [reflexivity|exact Hk].
  Qed.
  Lemma made_idx_inj k k' nd nd' : mk k nd -> mk k' nd' -> n_idx nd = n_idx nd' -> k = k'.
  Proof.
    assert (HFF : forall x a1 a2, flat_leaf h x a1 -> flat_leaf h x a2 -> a1 = a2).
    { intros x a1 a2 (_ & H1 & _) (_ & H2 & _). exact (up_chain_fun h FLAT x a1 H1 a2 H2). }
    assert (A : forall k k' nd nd', mk k nd -> mk k' nd' -> n_idx nd = n_idx nd' -> n_idx nd = k -> k = k').
    { clear k k' nd nd'. intros k k' nd nd' H H' E Ek. destruct (made_idx k' nd' H') as [[E' _]|(r & HF & HK)]; [congruence|].
      rewrite <- E, Ek in HF. destruct H as [k Hk HK0|k x r0 HK0 HF0|k Hk Ht HK0 HNF].
      - exfalso. apply kids_nonempty in HK0. destruct HK0 as [c Hc]. destruct HF as (HF & _). exact (HF _ _ Hc).
      - cbn in Ek. subst x. pose proof (HFF _ _ _ HF0 HF) as Hx. congruence.
      - exfalso. apply (HNF k (k' :: r) HF). left. reflexivity. }
    intros H H' E. destruct (made_idx k nd H) as [[Ek _]|(r & HF & HK)]; [exact (A _ _ _ _ H H' E Ek)|].
    destruct (made_idx k' nd' H') as [[Ek' _]|(r' & HF' & HK')]; [symmetry; apply (A k' k nd' nd H' H); [auto|exact Ek']|].
    rewrite E in HF. pose proof (HFF _ _ _ HF HF') as Hx. congruence.
  Qed.
  Lemma made_in_tree k nd : mk k nd -> takes_part h k /\ takes_part h (n_idx nd) /\ n_idx nd < n.
  Proof.
    assert (Hb : forall a, In a h -> a_parent a < n /\ a_child a < n) by apply HP.
    intros H. destruct H as [k Hk HK|k x r HK HF|k Hk Ht]; [| |cbn; auto].
    - destruct (fold_part_fields k) as (E & _). rewrite E. apply kids_nonempty in HK. destruct HK as [c Hc].
      assert (takes_part h k) by (exists (PART, k, c); auto). auto.
    - cbn [flat_node new_node n_idx]. destruct HF as (Hc & Hu & Hn). pose proof (up_chain_lpath h FLAT x _ Hu k (or_introl eq_refl)) as HL.
      split; [|].
      + inversion HL; subst; eexists; (split; [eassumption|]); cbn; auto.
      + destruct (up_chain_snoc _ _ _ _ Hu Hn) as (p & a & _ & E & _). apply last_reg_In in E. split; [exists (FLAT, p, x); auto|]. apply Hb in E. apply E.
  Qed.

  Lemma t_len_big : (t_len t =? 1) = false.
  Proof.
    apply Nat.eqb_neq. unfold t_len, t_nodes. unfold t. cbn [length]. unfold dkeys. rewrite map_length, tree_parents_length.
    destruct h as [|a h']; [congruence|]. cbn. lia.
  Qed.

  Theorem nodify_spec : exists s rt, 
    let d := s_dict s in let H := s_heap s in let h' := node_arcs t d in
    let nt := tree_of rt h' in
    nodify U tokens tags (Some t) = Ok (H, map (fun r => (n_idx (H r), r)) (filter (fun r => negb (has_parent_via_set nt r FUNCTIONAL_DEPS)) (dvalues d)), Some nt) /\
    good s /\ dget Nat.eqb root d = Some rt /\ no_loop h' /\
    (forall k r, dget Nat.eqb k d = Some r -> mk k (H r)) /\
    (forall k, k < n -> dget Nat.eqb k d = None -> absorbed h k) /\
    NoDup (map (fun r => n_idx (H r)) (dvalues d)).
  Proof.
    destruct (loops U tokens tags root h Htags HP) as (s & E & Hg & Hm & Ha).
    assert (HM : forall k r, dget Nat.eqb k (s_dict s) = Some r -> mk k (s_heap s r)).
    { intros k r Ek. apply Hm. unfold look. rewrite Ek. reflexivity. }
    assert (HA : forall k, k < n -> dget Nat.eqb k (s_dict s) = None -> absorbed h k).
    { intros k Hk Ek. apply Ha; [exact Hk|]. unfold look. rewrite Ek. reflexivity. }
    destruct HP as (Hb & Hac & Hr & Hrc & Hrp).
    assert (Hrt : exists rt, dget Nat.eqb root (s_dict s) = Some rt).
    { destruct (dget Nat.eqb root (s_dict s)) as [rt|] eqn:Er; [eauto|]. exfalso. destruct (HA root Hr Er) as (_ & _ & [H|[(x & a & r & HF & Hin)|(p & Hp)]]).
      - apply H. specialize (Hrp Hne). apply in_map_iff in Hrp. destruct Hrp as (a & E1 & Hin). exists a. auto.
      - apply Hrc. destruct HF as (_ & Hu & Hn). destruct Hin as [<-|Hin].
        + destruct (up_chain_snoc _ _ _ _ Hu Hn) as (q & a' & _ & E1 & _). apply last_reg_In in E1. apply (in_map a_child) in E1. exact E1.
        + assert (Hin' : In root (a :: r)) by (right; exact Hin).
          destruct (up_chain_members _ _ _ _ Hu root Hin') as [[r' E2]|[p' E2]].
          * injection E2 as E2 E3. subst a r'. exfalso.
            assert (Hd : forall l x anc, up_chain h l x anc -> NoDup anc).
            { clear - Hac. intros l. induction 1 as [x Hs|x p anc E H IH]; [constructor|].
              assert (~ In p anc) by (intros F; apply (Hac p); apply lpath_path with l; exact (up_chain_lpath _ _ _ _ H p F)).
              apply NoDup_Add with (a := p) (l := anc); [|split; assumption]. rewrite <- (app_nil_r anc) at 1. apply Add_app. }
            specialize (Hd _ _ _ Hu). inversion Hd; subst. contradiction.
          * apply last_reg_In in E2. apply (in_map a_child) in E2. exact E2.
      - apply Hrc. apply (in_map a_child) in Hp. exact Hp. }
    destruct Hrt as [rt Er]. exists s, rt. cbv zeta.
    destruct Hg as (G1 & G2 & G3).
    assert (Hinj : forall k k' r, dget Nat.eqb k (s_dict s) = Some r -> dget Nat.eqb k' (s_dict s) = Some r -> k = k').
    { intros k k' r E1 E2. apply (made_idx_inj k k' (s_heap s r) (s_heap s r)); [apply HM; exact E1|apply HM; exact E2|reflexivity]. }
    assert (HNL : no_loop (node_arcs t (s_dict s))).
    { apply Forall_forall. intros [[l r] rc] Hin. apply (In_node_arcs root h _ _ _ _ G1) in Hin. destruct Hin as (k & c & Ek & Ec & Hin). cbn. intros <-.
      pose proof (Hinj _ _ _ Ek Ec). subst c. apply (Hac k). eapply path_one. exact Hin. }
    assert (HND : NoDup (map (fun r => n_idx (s_heap s r)) (dvalues (s_dict s)))).
    { unfold dvalues. rewrite map_map.
      assert (HM' : forall k r, In (k, r) (s_dict s) -> mk k (s_heap s r)) by (intros k r Hin; apply HM; apply (In_dget _ nat_eqb_ok); assumption).
      revert HM' G1. generalize (s_dict s) as d. induction d as [|[k r] d IH]; intros HM' G1; [constructor|]. cbn [map snd]. cbn in G1. inversion G1; subst. constructor.
      - intros F. apply in_map_iff in F. destruct F as ([k' r'] & Ei & Hin). cbn in Ei.
        assert (k' = k).
        { apply (made_idx_inj k' k (s_heap s r') (s_heap s r)); [apply HM'; right; exact Hin|apply HM'; left; reflexivity|exact Ei]. }
        subst k'. apply H1. apply (in_map fst) in Hin. exact Hin.
      - apply IH; [|assumption]. intros k' r' Hin. apply HM'. right. exact Hin. }
    split; [|exact (conj (conj G1 (conj G2 G3)) (conj Er (conj HNL (conj HM (conj HA HND)))))].
    unfold nodify. rewrite t_len_big. unfold t in *. cbv zeta. cbv zeta in E.
    destruct (foldM (flat_step U tokens tags (tree_of root h)) _ (enumerate tokens)) as [s1|e] eqn:E1; [|discriminate E].
    cbn [rbind] in *.
    destruct (foldM (part_step U tokens tags (tree_of root h)) s1 (enumerate tokens)) as [s2|e] eqn:E2; [|discriminate E].
    cbn [rbind] in *. rewrite E. cbn [rbind].
    rewrite (node_tree_eq (tree_of root h) (s_dict s) rt); [|rewrite tree_of_root; exact Er|exact HNL]. cbn [rbind].
    rewrite content_eq by exact HND. reflexivity.
  Qed.
End Nodify2.
