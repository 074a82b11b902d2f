(** The facts found by ArgFinder are those of SArgs. *)
From Coq Require Import Ascii String.
From Coq Require Import List NArith ZArith Arith Bool Lia.
From Verif Require Import PyBase Regex MUtils MTree MNormal MNode SUtils STree SNode SArgs LBase LText LTree LNode LNode3 LArgs.
Import ListNotations.
Local Open Scope nat_scope.

Lemma In_EvL v b y a x l : In (EvL v b y) (map (EvL x a) l) <-> v = x /\ b = a /\ In y l.
Proof.
  rewrite in_map_iff. split; [intros (z & E & Hz); injection E as <- <- <-; auto|]. intros (-> & -> & Hy). exists y. auto.
Qed.
Lemma flat_lst v a es x : In x (flat_map (lst v a) es) <-> In (EvL v a x) es.
Proof.
  rewrite in_flat_map. split.
  - intros (e & He & Hx). destruct e as [r b y|r|r q|r q|r q]; try destruct Hx. cbn in Hx. destruct (Nat.eqb_spec v r) as [->|]; [|destruct Hx].
    unfold attr_eqb in Hx. destruct (attr_eq_dec a b) as [->|]; [|destruct Hx]. destruct Hx as [<-|[]]. exact He.
  - intros He. exists (EvL v a x). split; [exact He|]. cbn. rewrite Nat.eqb_refl. unfold attr_eqb. destruct (attr_eq_dec a a); [left; reflexivity|congruence].
Qed.
Lemma flat_svi v es x : In x (flat_map (svi v) es) <-> In (EvS v x) es.
Proof.
  rewrite in_flat_map. split.
  - intros (e & He & Hx). destruct e as [r b y|r|r q|r q|r q]; try destruct Hx. cbn in Hx. destruct (Nat.eqb_spec v r) as [->|]; [|destruct Hx]. destruct Hx as [<-|[]]. exact He.
  - intros He. exists (EvS v x). split; [exact He|]. cbn. rewrite Nat.eqb_refl. left. reflexivity.
Qed.
Lemma flat_cop v es x : In x (flat_map (cop v) es) <-> In (EvC v x) es.
Proof.
  rewrite in_flat_map. split.
  - intros (e & He & Hx). destruct e as [r b y|r|r q|r q|r q]; try destruct Hx. cbn in Hx. destruct (Nat.eqb_spec v r) as [->|]; [|destruct Hx]. destruct Hx as [<-|[]]. exact He.
  - intros He. exists (EvC v x). split; [exact He|]. cbn. rewrite Nat.eqb_refl. left. reflexivity.
Qed.
Lemma flat_pps v es x : In x (flat_map (pps v) es) <-> In (EvP v x) es.
Proof.
  rewrite in_flat_map. split.
  - intros (e & He & Hx). destruct e as [r b y|r|r q|r q|r q]; try destruct Hx. cbn in Hx. destruct (Nat.eqb_spec v r) as [->|]; [|destruct Hx]. destruct Hx as [<-|[]]. exact He.
  - intros He. exists (EvP v x). split; [exact He|]. cbn. rewrite Nat.eqb_refl. left. reflexivity.
Qed.
Lemma exists_neg v es : existsb (neg v) es = true <-> In (EvNeg v) es.
Proof.
  rewrite existsb_exists. split.
  - intros (e & He & Hx). destruct e; try discriminate. cbn in Hx. apply Nat.eqb_eq in Hx. subst. exact He.
  - intros He. exists (EvNeg v). split; [exact He|apply Nat.eqb_refl].
Qed.

Section Link.
  Variables (H : heap) (root : nat) (h : list arc) (nodes : list nat).
  Let t := tree_of root h.
  Let inb (x : nat) := existsb (Nat.eqb x) nodes.
  Definition KA (x : nat) := if inb x then children_via t x AND else [].
  Definition KO (x : nat) := if inb x then children_via t x OR else [].
  Lemma inb_In x : inb x = true <-> In x nodes.
  Proof. unfold inb. rewrite existsb_exists. split; [intros (y & Hy & E); apply Nat.eqb_eq in E; subst; exact Hy|intros Hx; exists x; split; [exact Hx|apply Nat.eqb_refl]]. Qed.
  Definition fresh (r : rels) : Prop := r_aff r = true /\ (forall a, r_list r a = []) /\ r_svi r = [] /\ r_copulas r = [] /\ r_pps r = [].
  Lemma aggregated : let R := fold_left (aggregate_step t) nodes (fun _ => new_rels) in stable KA KO R /\ forall x, fresh (R x).
  Proof.
    assert (G : forall l R, (forall x, fresh (R x)) -> let R' := fold_left (aggregate_step t) l R in (forall x, fresh (R' x)) /\
      forall x, (existsb (Nat.eqb x) l = true -> r_and (R' x) = children_via t x AND /\ r_or (R' x) = children_via t x OR) /\
                (existsb (Nat.eqb x) l = false -> r_and (R' x) = r_and (R x) /\ r_or (R' x) = r_or (R x))).
    { induction l as [|a l IH]; intros R HF; cbv zeta; cbn [fold_left existsb].
      - split; [exact HF|]. intros x. split; [discriminate|auto].
      - destruct (IH (aggregate_step t R a)) as [F G].
        + intros x. unfold aggregate_step, upd. destruct (Nat.eqb_spec x a); [|apply HF]. subst. destruct (HF a) as (F1 & F2 & F3 & F4 & F5). repeat split; assumption.
        + split; [exact F|]. intros x. destruct (G x) as [G1 G2]. split.
          * intros E. destruct (existsb (Nat.eqb x) l) eqn:El; [apply G1; reflexivity|]. destruct (G2 eq_refl) as [E1 E2]. rewrite E1, E2. rewrite orb_false_r in E.
            apply Nat.eqb_eq in E. subst. unfold aggregate_step. rewrite upd_same. auto.
          * intros E. apply orb_false_iff in E. destruct E as [E1 E2]. destruct (G2 E2) as [-> ->]. apply Nat.eqb_neq in E1. unfold aggregate_step. rewrite upd_other by exact E1. auto. }
    destruct (G nodes (fun _ => new_rels)) as [F G1]; [intros x; repeat split|]. split; [|exact F]. intros x. unfold KA, KO, inb. destruct (G1 x) as [E1 E2].
    destruct (existsb (Nat.eqb x) nodes); [apply E1; reflexivity|]. apply E2. reflexivity.
  Qed.
  Definition all_events : list ev :=
    flat_map (ev_direct H t KA KO) nodes ++ flat_map (ev_distant H t KA KO (flat_map (naked t) nodes) (flat_map (mrkd t) nodes)) nodes.
  Theorem find_args_facts v : let R := find_args H t (fun _ => new_rels) nodes in
    r_and (R v) = KA v /\ r_or (R v) = KO v /\
    (r_aff (R v) = false <-> In (EvNeg v) all_events) /\
    (forall a x, In x (r_list (R v) a) <-> In (EvL v a x) all_events) /\
    (forall e, In e (r_svi (R v)) <-> In (EvS v e) all_events) /\
    (forall e, In e (r_copulas (R v)) <-> In (EvC v e) all_events) /\
    (forall e, In e (r_pps (R v)) <-> In (EvP v e) all_events).
  Proof.
    intros R. destruct aggregated as [S F]. pose proof (loops_obs H t KA KO _ nodes S v) as O. cbv zeta in O. fold (find_args H t (fun _ => new_rels) nodes) in O.
    fold all_events in O. change (find_args H t (fun _ => new_rels) nodes) with R in O. destruct O as (O1 & O2 & O3 & O4 & O5 & O6 & O7). destruct (S v) as [S1 S2].
    destruct (F v) as (F1 & F2 & F3 & F4 & F5). rewrite O1, O2, O3, O5, O6, O7, F1, F3, F4, F5. cbn [app andb].
    split; [exact S1|]. split; [exact S2|]. split; [rewrite negb_false_iff; apply exists_neg|].
    split; [intros a x; rewrite O4, F2; apply flat_lst|]. split; [intros e; apply flat_svi|]. split; [intros e; apply flat_cop|intros e; apply flat_pps].
  Qed.

  (** Links *)
  Lemma first_kid_iff l x y : child_via t x l = Some y <-> first_kid h l x y.
  Proof.
    unfold t. rewrite child_via_spec, children_via_spec. unfold first_kid, kids. destruct (map a_child _) as [|z zs]; cbn.
    - split; [discriminate|]. intros [rest E]. discriminate.
    - split; [intros E; injection E as ->; exists zs; reflexivity|]. intros [rest E]. injection E as -> _. reflexivity.
  Qed.
  Lemma no_kid_iff l x : child_via t x l = None <-> ~ has_kid h l x.
  Proof.
    destruct (child_via t x l) as [y|] eqn:E.
    - split; [discriminate|]. intros F. exfalso. apply F. apply first_kid_iff in E. destruct E as [rest E]. exists y. apply (In_children_via root).
      rewrite children_via_spec. unfold kids in E. rewrite E. left. reflexivity.
    - split; [|reflexivity]. intros _ [c Hc]. unfold t in E. rewrite child_via_spec in E. apply (In_children_via root) in Hc.
      destruct (children_via (tree_of root h) x l); [destruct Hc|discriminate].
  Qed.
  Lemma kid_iff l x : (exists y, child_via t x l = Some y) <-> has_kid h l x.
  Proof.
    split.
    - intros [y E]. apply first_kid_iff in E. destruct E as [rest E]. exists y. apply (In_children_via root). rewrite children_via_spec. unfold kids in E. rewrite E. left. reflexivity.
    - intros Hk. destruct (child_via t x l) as [y|] eqn:E; [exists y; reflexivity|]. apply no_kid_iff in E. contradiction.
  Qed.
  Lemma has_kid_iff l x : has_child_via t x l = true <-> has_kid h l x.
  Proof. apply has_child_via_spec. Qed.
  Lemma hasnt_kid_iff l x : negb (has_child_via t x l) = true <-> ~ has_kid h l x.
  Proof. rewrite negb_true_iff, <- not_true_iff_false, has_kid_iff. reflexivity. Qed.
  Lemma marked_iff x : has_child_via_set t x MARKER_DEPS = true <-> marked h x.
  Proof.
    unfold t. rewrite has_child_via_set_spec. unfold marked, has_kid. split.
    - intros (l & c & Hl & Hin). cbn in Hl. destruct Hl as [<-|[<-|[<-|[]]]]; eauto.
    - intros [[c Hc]|[[c Hc]|[c Hc]]]; [exists MARK, c|exists CMARK, c|exists IMARK, c]; (split; [cbn; auto|exact Hc]).
  Qed.
  Lemma unmarked_iff x : negb (has_child_via_set t x MARKER_DEPS) = true <-> ~ marked h x.
  Proof. rewrite negb_true_iff, <- not_true_iff_false, marked_iff. reflexivity. Qed.
  Lemma leaf_iff x : negb (nonempty (t_children_of t x)) = true <-> forall l, ~ has_kid h l x.
  Proof.
    unfold t. destruct (t_children_of (tree_of root h) x) as [|[l c] cs] eqn:E.
    - split; [|reflexivity]. intros _ l [c Hc]. apply (In_children_of root) in Hc. rewrite E in Hc. destruct Hc.
    - split; [discriminate|]. intros F. exfalso. apply (F l). exists c. apply (In_children_of root). rewrite E. left. reflexivity.
  Qed.
  Lemma cj_iff x y : In y (cj KA KO x) <-> conjunct h nodes x y.
  Proof.
    unfold cj, KA, KO, conjunct. rewrite in_app_iff. pose proof (inb_In x) as I. destruct (inb x).
    - unfold t. rewrite !In_children_via. split; [intros C; split; [apply I; reflexivity|exact C]|]. intros [_ C]. exact C.
    - split; [intros [[]|[]]|]. intros [F _]. apply I in F. discriminate.
  Qed.
  Lemma agg_iff x y : In y (agg KA KO x) <-> coordinated h nodes x y.
  Proof. change (agg KA KO x) with (x :: cj KA KO x). cbn [In]. rewrite cj_iff. unfold coordinated. split; intros [E|E]; auto. Qed.
  Lemma sharers_subj v v' : In v' (sharers KA KO (fun x => negb (has_child_via t x SUBJ)) v) <-> shares_subj h nodes v v'.
  Proof. unfold sharers, shares_subj. cbn [In]. rewrite filter_In, cj_iff, hasnt_kid_iff. split; intros [E|E]; auto. Qed.
  Lemma sharers_obj v v' : In v' (sharers KA KO (fun x => negb (nonempty (t_children_of t x))) v) <-> shares_obj h nodes v v'.
  Proof. unfold sharers, shares_obj. cbn [In]. rewrite filter_In, cj_iff, leaf_iff. split; intros [E|E]; auto. Qed.
  Lemma parent_eq x : t_parent t x = last_reg h x.
  Proof. apply tree_parent. Qed.
  Lemma tag_eqb_iff a b : tag_eqb a b = true <-> a = b.
  Proof. apply tag_eqb_ok. Qed.
  Lemma dep_eqb_iff a b : dep_eqb a b = true <-> a = b.
  Proof. apply dep_eqb_ok. Qed.
  Lemma rel_pron_iff v x y : resolve_relative_pron H t v x = Some y <-> relative H x /\ modified_by h H y v.
  Proof.
    unfold resolve_relative_pron, relative, modified_by, tag_of, word. rewrite parent_eq. destruct (last_reg h v) as [[d p]|].
    - set (b := tag_eqb (n_tag (H x)) PRON && str_in (n_canon (H x)) relative_pronouns && dep_eqb d CPL && tag_in (n_tag (H p)) NOUN_TAGS && negb (has_child_via_set t v MARKER_DEPS)).
      assert (E : b = true <-> n_tag (H x) = PRON /\ In (n_canon (H x)) relative_pronouns /\ d = CPL /\ noun_tag (n_tag (H p)) /\ ~ marked h v).
      { unfold b. rewrite !andb_true_iff, tag_eqb_iff, str_in_In, dep_eqb_iff, noun_tag_iff, unmarked_iff. tauto. }
      destruct b.
      + destruct (proj1 E eq_refl) as (E1 & E2 & E3 & E4 & E5). subst d. split.
        * intros F. injection F as <-. auto 10.
        * intros ((_ & _) & F & _). injection F as <-. reflexivity.
      + split; [discriminate|]. intros ((F1 & F2) & F3 & F4 & F5). injection F3 as -> ->. destruct E as [_ E]. discriminate E. auto 10.
    - split; [discriminate|]. intros (_ & F & _). discriminate.
  Qed.
  Lemma rel_pron_none v x : resolve_relative_pron H t v x = None <-> ~ (relative H x /\ exists z, modified_by h H z v).
  Proof.
    destruct (resolve_relative_pron H t v x) as [y|] eqn:E.
    - split; [discriminate|]. intros F. exfalso. apply F. apply rel_pron_iff in E. destruct E as [E1 E2]. split; [exact E1|exists y; exact E2].
    - split; [|reflexivity]. intros _ [F1 [z F2]]. assert (resolve_relative_pron H t v x = Some z) by (apply rel_pron_iff; auto). congruence.
  Qed.
  Lemma subj_refl_iff v x y : resolve_subj_reflexive_pron H t v x = Some y <-> reflexive H x /\ exists p, last_reg h v = Some (OBJ, p) /\ tag_of H p = VERB /\ first_kid h SUBJ p y.
  Proof.
    unfold resolve_subj_reflexive_pron, reflexive, word, tag_of. rewrite parent_eq. destruct (str_in (n_canon (H x)) reflexive_pronouns) eqn:E.
    - apply str_in_In in E. destruct (last_reg h v) as [[d p]|].
      + destruct (dep_eqb d OBJ && tag_eqb (n_tag (H p)) VERB) eqn:E2.
        * apply andb_true_iff in E2. rewrite dep_eqb_iff, tag_eqb_iff in E2. destruct E2 as [-> E2]. rewrite first_kid_iff. split.
          -- intros F. split; [exact E|]. exists p. auto.
          -- intros (_ & p' & F & _ & K). injection F as <-. exact K.
        * split; [discriminate|]. intros (_ & p' & F & Ft & _). injection F as -> ->. rewrite (proj2 (tag_eqb_iff _ _) Ft) in E2. discriminate.
      + split; [discriminate|]. intros (_ & p & F & _). discriminate.
    - split; [discriminate|]. intros (F & _). apply str_in_In in F. unfold reflexive_pronouns in E. rewrite F in E. discriminate.
  Qed.
  Lemma obj_refl_iff v x y : resolve_obj_reflexive_pron H t v x = Some y <-> reflexive H x /\ first_kid h SUBJ v y.
  Proof.
    unfold resolve_obj_reflexive_pron, reflexive, word. destruct (str_in (n_canon (H x)) reflexive_pronouns) eqn:E.
    - apply str_in_In in E. rewrite first_kid_iff. split; [auto|]. intros [_ F]. exact F.
    - split; [discriminate|]. intros (F & _). apply str_in_In in F. unfold reflexive_pronouns in E. rewrite F in E. discriminate.
  Qed.
  Lemma subj_ref_iff v x y : stands_for (subj_antecedent h H) v x y <-> y = subj_ref H t v x.
  Proof.
    assert (A : forall z, subj_antecedent h H v x z <-> (match resolve_relative_pron H t v x with Some w => Some w | None => resolve_subj_reflexive_pron H t v x end) = Some z).
    { intros z. destruct (resolve_relative_pron H t v x) as [w|] eqn:E.
      - pose proof E as E'. apply rel_pron_iff in E'. destruct E' as [E1 E2]. split.
        + intros [z' A1 A2|p z' A1 _ _ _ _]; [|exfalso; apply A1; split; [exact E1|exists w; exact E2]]. rewrite <- E. apply rel_pron_iff. auto.
        + intros F. injection F as <-. apply sa_rel; assumption.
      - apply rel_pron_none in E. rewrite subj_refl_iff. split.
        + intros [z' A1 A2|p z' _ A2 A3 A4 A5]; [exfalso; apply E; split; [exact A1|exists z'; exact A2]|]. split; [exact A2|]. exists p. auto.
        + intros (A2 & p & A3 & A4 & A5). eapply sa_refl; eassumption. }
    unfold stands_for, subj_ref. rewrite A. destruct (resolve_relative_pron H t v x) as [w|].
    - split; [intros [E|[_ F]]; [congruence|exfalso; apply (F w), A; reflexivity]|]. intros ->. left. reflexivity.
    - destruct (resolve_subj_reflexive_pron H t v x) as [w|].
      + split; [intros [E|[_ F]]; [congruence|exfalso; apply (F w), A; reflexivity]|]. intros ->. left. reflexivity.
      + split; [intros [E|[E _]]; [discriminate|exact E]|]. intros ->. right. split; [reflexivity|]. intros z F. apply A in F. discriminate.
  Qed.
  Lemma obj_ref_iff v x y : stands_for (obj_antecedent h H) v x y <-> y = obj_ref H t v x.
  Proof.
    assert (A : forall z, obj_antecedent h H v x z <-> (match resolve_relative_pron H t v x with Some w => Some w | None => resolve_obj_reflexive_pron H t v x end) = Some z).
    { intros z. destruct (resolve_relative_pron H t v x) as [w|] eqn:E.
      - pose proof E as E'. apply rel_pron_iff in E'. destruct E' as [E1 E2]. split.
        + intros [z' A1 A2|z' A1 _ _]; [|exfalso; apply A1; split; [exact E1|exists w; exact E2]]. rewrite <- E. apply rel_pron_iff. auto.
        + intros F. injection F as <-. apply oa_rel; assumption.
      - apply rel_pron_none in E. rewrite obj_refl_iff. split.
        + intros [z' A1 A2|z' _ A2 A3]; [exfalso; apply E; split; [exact A1|exists z'; exact A2]|]. auto.
        + intros (A2 & A3). apply oa_refl; assumption. }
    unfold stands_for, obj_ref. rewrite A. destruct (resolve_relative_pron H t v x) as [w|].
    - split; [intros [E|[_ F]]; [congruence|exfalso; apply (F w), A; reflexivity]|]. intros ->. left. reflexivity.
    - destruct (resolve_obj_reflexive_pron H t v x) as [w|].
      + split; [intros [E|[_ F]]; [congruence|exfalso; apply (F w), A; reflexivity]|]. intros ->. left. reflexivity.
      + split; [intros [E|[E _]]; [discriminate|exact E]|]. intros ->. right. split; [reflexivity|]. intros z F. apply A in F. discriminate.
  Qed.
  Lemma naked_iff r : In r (flat_map (naked t) nodes) <-> (exists p, attached h nodes r CPL p) /\ ~ marked h r.
  Proof.
    assert (E : ~ marked h r <-> child_via t r MARK = None /\ child_via t r IMARK = None /\ child_via t r CMARK = None) by (rewrite !no_kid_iff; unfold marked; tauto).
    rewrite E, in_flat_map. unfold attached. split.
    - intros (x & Hx & Hr). unfold naked in Hr. rewrite parent_eq in Hr. destruct (last_reg h x) as [[d p]|] eqn:El; [|destruct Hr]. destruct d; try destruct Hr.
      destruct (child_via t x MARK) eqn:E1, (child_via t x IMARK) eqn:E2, (child_via t x CMARK) eqn:E3; try destruct Hr. subst r. split; [exists p; auto|auto]. destruct H0.
    - intros ((p & Hr & El) & E1 & E2 & E3). exists r. split; [exact Hr|]. unfold naked. rewrite parent_eq, El, E1, E2, E3. left. reflexivity.
  Qed.
  Lemma mrkd_iff r : In r (flat_map (mrkd t) nodes) <-> (exists p, attached h nodes r CPL p) /\ has_kid h MARK r.
  Proof.
    rewrite <- kid_iff, in_flat_map. unfold attached. split.
    - intros (x & Hx & Hr). unfold mrkd in Hr. rewrite parent_eq in Hr. destruct (last_reg h x) as [[d p]|] eqn:El; [|destruct Hr]. destruct d; try destruct Hr.
      destruct (child_via t x MARK) as [m|] eqn:E1; [|destruct Hr]. destruct Hr as [<-|[]]. split; [exists p; auto|exists m; exact E1].
    - intros ((p & Hr & El) & m & E1). exists r. split; [exact Hr|]. unfold mrkd. rewrite parent_eq, El, E1. left. reflexivity.
  Qed.

  Lemma ev_list_In e v a x : In e (map (EvL v a) (agg KA KO x)) <-> exists y, e = EvL v a y /\ coordinated h nodes x y.
  Proof.
    rewrite in_map_iff. split.
    - intros (y & <- & Hy). exists y. split; [reflexivity|]. apply agg_iff. exact Hy.
    - intros (y & -> & Hy). exists y. split; [reflexivity|]. apply agg_iff. exact Hy.
  Qed.
  Lemma ev_subjs_In e v s : In e (ev_subjs t KA KO v s) <-> exists v' y, e = EvL v' A_subjs y /\ shares_subj h nodes v v' /\ coordinated h nodes s y.
  Proof.
    unfold ev_subjs. rewrite in_flat_map. split.
    - intros (v' & Hv & He). apply ev_list_In in He. destruct He as (y & -> & Hy). exists v', y. split; [reflexivity|]. split; [apply sharers_subj; exact Hv|exact Hy].
    - intros (v' & y & -> & Hv & Hy). exists v'. split; [apply sharers_subj; exact Hv|]. apply ev_list_In. exists y. auto.
  Qed.
  Lemma ev_objs_In e v s : In e (ev_objs t KA KO v s) <-> exists v' y, e = EvL v' A_objs y /\ shares_obj h nodes v v' /\ coordinated h nodes s y.
  Proof.
    unfold ev_objs. rewrite in_flat_map. split.
    - intros (v' & Hv & He). apply ev_list_In in He. destruct He as (y & -> & Hy). exists v', y. split; [reflexivity|]. split; [apply sharers_obj; exact Hv|exact Hy].
    - intros (v' & y & -> & Hv & Hy). exists v'. split; [apply sharers_obj; exact Hv|]. apply ev_list_In. exists y. auto.
  Qed.
  Lemma ev_pps_In e n pp x : In e (ev_pps KA KO n pp x) <-> exists y, e = EvP n (pp, y) /\ coordinated h nodes x y.
  Proof.
    unfold ev_pps. rewrite in_flat_map. split.
    - intros (y & Hy & [<-|[]]). exists y. split; [reflexivity|]. apply agg_iff. exact Hy.
    - intros (y & -> & Hy). exists y. split; [apply agg_iff; exact Hy|left; reflexivity].
  Qed.
  Lemma ev_cops_In e s c p : In e (ev_cops t KA KO s c p) <->
    exists s' p', e = EvC s' (c, p') /\ coordinated h nodes s s' /\ coordinated h nodes p p' /\ ~ marked h p'.
  Proof.
    unfold ev_cops. rewrite in_flat_map. split.
    - intros ([s' p'] & Hx & [<-|[]]). apply in_flat_map in Hx. destruct Hx as (s0 & Hs & Hx). apply in_map_iff in Hx. destruct Hx as (p0 & E & Hp). injection E as -> ->.
      apply filter_In in Hp. destruct Hp as [Hp Hm]. exists s', p'. split; [reflexivity|]. rewrite <- !agg_iff, <- unmarked_iff. auto.
    - intros (s' & p' & -> & Hs & Hp & Hm). exists (s', p'). split; [|left; reflexivity]. apply in_flat_map. exists s'. split; [apply agg_iff; exact Hs|].
      apply in_map. apply filter_In. split; [apply agg_iff; exact Hp|apply unmarked_iff; exact Hm].
  Qed.
  Lemma ev_iprops_In e v ip : In e (ev_iprops t KA KO v ip) <->
    (exists y, e = EvL v A_iprops y /\ coordinated h nodes ip y) \/
    (exists o o' y, e = EvS o' (child_via t v SUBJ, v, y) /\ first_kid h OBJ v o /\ coordinated h nodes o o' /\ coordinated h nodes ip y).
  Proof.
    unfold ev_iprops. rewrite in_app_iff, ev_list_In. apply or_iff_compat_l. split.
    - destruct (child_via t v OBJ) as [o|] eqn:E; [|intros []]. apply first_kid_iff in E. intros He. apply in_flat_map in He. destruct He as ([o' y] & Hx & [<-|[]]).
      apply in_flat_map in Hx. destruct Hx as (o0 & Ho & Hx). apply in_map_iff in Hx. destruct Hx as (p0 & E0 & Hp). injection E0 as -> ->.
      exists o, o', y. split; [reflexivity|]. rewrite <- !agg_iff. auto.
    - intros (o & o' & y & -> & Ho & Hc & Hy). apply first_kid_iff in Ho. rewrite Ho. apply in_flat_map. exists (o', y). split; [|left; reflexivity].
      apply in_flat_map. exists o'. split; [apply agg_iff; exact Hc|]. apply in_map. apply agg_iff. exact Hy.
  Qed.
  Lemma by_agent_iff d m : by_agent H t d m = true <-> word H m = lit "by" /\ exists l p, last_reg h d = Some (l, p) /\ (l = PROP \/ l = CPL).
  Proof.
    unfold by_agent, word. rewrite andb_true_iff, str_eqb_eq, parent_eq. apply and_iff_compat_l. destruct (last_reg h d) as [[l p]|].
    - rewrite dep_in_In. cbn [In]. split.
      + intros [<-|[<-|[]]]; eauto 6.
      + intros (l' & p' & E & Hl). injection E as -> ->. destruct Hl as [->| ->]; auto.
    - split; [discriminate|]. intros (l & p & E & _). discriminate.
  Qed.
  Lemma ev_agents_In e d c m : In e (ev_agents H t KA KO d c m) <-> word H m = lit "by" /\ (exists l p, last_reg h d = Some (l, p) /\ (l = PROP \/ l = CPL)) /\
    exists y, e = EvL d A_agents y /\ coordinated h nodes c y.
  Proof.
    unfold ev_agents. pose proof (by_agent_iff d m) as B. destruct (by_agent H t d m).
    - rewrite ev_list_In. split; [intros F; destruct (proj1 B eq_refl); auto|]. intros (_ & _ & F). exact F.
    - split; [intros []|]. intros (F1 & F2 & _). assert (false = true) by (apply B; auto). discriminate.
  Qed.

  (** What an event says *)
  Definition fact (e : ev) : Prop :=
    match e with
    | EvL v A_subjs x => subject h H nodes v x
    | EvL v A_objs x => object h H nodes v x
    | EvL v A_iobjs x => dependent h nodes IOBJ v x
    | EvL v A_exists x => dependent h nodes EXIST v x
    | EvL v A_props x => dependent h nodes PROP v x
    | EvL v A_iprops x => dependent h nodes IPROP v x
    | EvL v A_adjs x => adjective h H nodes v x
    | EvL v A_agents x => agent h H nodes v x
    | EvNeg v => In v nodes /\ has_kid h NEG v
    | EvS v x => subj_verb_iprop h nodes v x
    | EvC v x => copula_prop h H nodes v x
    | EvP v x => pp_prop h H nodes v x
    end.
  Lemma cop_ref v s0 y : ((relative H s0 /\ modified_by h H y v) \/ (y = s0 /\ ~ (relative H s0 /\ exists z, modified_by h H z v))) <->
    y = match resolve_relative_pron H t v s0 with Some z => z | None => s0 end.
  Proof.
    destruct (resolve_relative_pron H t v s0) as [z|] eqn:E.
    - split.
      + intros [F|[_ F]]; [apply rel_pron_iff in F; congruence|]. apply rel_pron_none in F. congruence.
      + intros ->. left. apply rel_pron_iff. exact E.
    - apply rel_pron_none in E. split; [intros [[F1 F2]|[F _]]; [exfalso; apply E; eauto|exact F]|]. intros ->. right. auto.
  Qed.
  Lemma child_subj_iff v : forall z, child_via t v SUBJ = Some z <-> first_kid h SUBJ v z.
  Proof. intros z. apply first_kid_iff. Qed.
  Lemma ev_parent_fact r e : In r nodes -> In e (ev_parent H t KA KO r) -> fact e.
  Proof.
    intros Hr. unfold ev_parent. rewrite parent_eq. destruct (last_reg h r) as [[d v]|] eqn:E; [|intros []].
    assert (A : attached h nodes r d v) by (split; assumption). destruct d; try (intros []; fail).
    all: try (intros He; apply ev_list_In in He; destruct He as (y & -> & Hy); exists r; auto; fail).
    all: try (intros He; apply ev_subjs_In in He; destruct He as (v' & y & -> & Hs & Hy); cbn [fact]; eapply subject_direct; try eassumption; apply subj_ref_iff; reflexivity).
    all: try (intros He; apply ev_objs_In in He; destruct He as (v' & y & -> & Hs & Hy); cbn [fact]; eapply object_direct; try eassumption; apply obj_ref_iff; reflexivity).
    all: try (intros He; apply ev_iprops_In in He; destruct He as [(y & -> & Hy)|(o & o' & y & -> & Ho & Hc & Hy)];
      [exists r; auto|cbn [fact]; eapply iprop; try eassumption; apply child_subj_iff]).
    rewrite in_app_iff, ev_list_In. intros [(y & -> & Hy)|He]; [exists r; auto|]. destruct (child_via t v SUBJ) as [s0|] eqn:Es; [|destruct He]. apply first_kid_iff in Es.
    apply ev_cops_In in He. destruct He as (s' & p' & -> & H1 & H2 & H3). cbn [fact]. eapply copula; try eassumption. apply cop_ref. reflexivity.
  Qed.
  Lemma ev_neg_iff r e : In e (ev_neg t r) <-> e = EvNeg r /\ has_kid h NEG r.
  Proof.
    unfold ev_neg. rewrite in_flat_map. split.
    - intros ([d c] & Hc & He). destruct (dep_eqb d NEG) eqn:E; [|destruct He]. apply dep_eqb_iff in E. subst. destruct He as [<-|[]]. split; [reflexivity|]. exists c.
      apply (In_children_of root). exact Hc.
    - intros (-> & c & Hc). exists (NEG, c). split; [apply (In_children_of root); exact Hc|left; reflexivity].
  Qed.
  Lemma ev_cpl_fact r p e : attached h nodes r CPL p -> In e (ev_cpl H t KA KO r p) -> fact e.
  Proof.
    intros A. unfold ev_cpl. rewrite in_app_iff. intros [He|He].
    - destruct (child_via t r MARK) as [m|] eqn:Em.
      + apply first_kid_iff in Em. apply ev_agents_In in He. destruct He as (Hw & (l & q & Hl & Hd) & y & -> & Hy). cbn [fact]. eapply agent_by; eassumption.
      + apply no_kid_iff in Em. destruct (tag_eqb (n_tag (H r)) ADJ) eqn:Et; [|destruct He]. apply tag_eqb_iff in Et. apply in_app_iff in He. destruct He as [He|He].
        * apply ev_list_In in He. destruct He as (y & -> & Hy). cbn [fact]. eapply adj_cpl; eassumption.
        * destruct (tag_in (n_tag (H p)) NOUN_TAGS) eqn:En; [|destruct He]. apply noun_tag_iff in En. destruct (child_via t r PROP) as [x|] eqn:Ex; [|destruct He].
          apply first_kid_iff in Ex. destruct (n_suffix (H r)) as [[]|] eqn:Es; try (now destruct He). apply ev_pps_In in He. destruct He as (y & -> & Hy).
          cbn [fact]. eapply participle_prop; eassumption.
    - destruct (child_via t r CMARK) as [m|] eqn:Em; [|destruct He]. destruct (tag_eqb (n_tag (H p)) ADJ && tag_in (n_tag (H r)) NOUN_TAGS) eqn:E; [|destruct He].
      apply andb_true_iff in E. rewrite tag_eqb_iff, noun_tag_iff in E. destruct E as [E1 E2]. apply ev_list_In in He. destruct He as (y & -> & Hy).
      cbn [fact]. eapply adj_cmp; try eassumption. apply kid_iff. exists m. exact Em.
  Qed.
  Lemma existsb_In x l : existsb (Nat.eqb x) l = true <-> In x l.
  Proof. rewrite existsb_exists. split; [intros (y & Hy & E); apply Nat.eqb_eq in E; subst; exact Hy|intros Hx; exists x; split; [exact Hx|apply Nat.eqb_refl]]. Qed.
  Lemma ev_distant_iff r e : In e (ev_distant H t KA KO (flat_map (naked t) nodes) (flat_map (mrkd t) nodes) r) <-> exists p, attached h nodes r CPL p /\
    ((has_kid h MARK r /\ tag_of H r = VERB /\ tag_of H p = VERB /\ ~ has_kid h SUBJ r /\ exists y, first_kid h SUBJ p y /\ In e (ev_subjs t KA KO r y)) \/
     (~ marked h r /\ noun_tag (tag_of H p) /\ ~ has_kid h OBJ r /\ exists s, first_kid h SUBJ r s /\ ~ In (word H s) relative_pronouns /\ In e (ev_objs t KA KO r p))).
  Proof.
    unfold ev_distant, tag_of, word. rewrite parent_eq. destruct (last_reg h r) as [[d p]|] eqn:El.
    2: { split; [intros []|]. intros (p & [_ F] & _). congruence. }
    set (b1 := _ && _ && _ && _).
    assert (B1 : b1 = true <-> (In r nodes /\ d = CPL /\ has_kid h MARK r) /\ n_tag (H r) = VERB /\ ~ has_kid h SUBJ r /\ n_tag (H p) = VERB).
    { unfold b1. rewrite !andb_true_iff, existsb_In, mrkd_iff, !tag_eqb_iff, hasnt_kid_iff. unfold attached. rewrite El. split.
      - intros [[[[(q & Hr & E) Hk] H1] H2] H3]. injection E as -> ->. auto 10.
      - intros ((Hr & -> & Hk) & H1 & H2 & H3). repeat split; auto. exists p. auto. }
    set (b2 := _ && _ && _).
    assert (B2 : b2 = true <-> (In r nodes /\ d = CPL /\ ~ marked h r) /\ noun_tag (n_tag (H p)) /\ ~ has_kid h OBJ r).
    { unfold b2. rewrite !andb_true_iff, existsb_In, naked_iff, noun_tag_iff, hasnt_kid_iff. unfold attached. rewrite El. split.
      - intros [[[(q & Hr & E) Hk] H1] H2]. injection E as -> ->. auto 10.
      - intros ((Hr & -> & Hk) & H1 & H2). repeat split; auto. exists p. auto. }
    unfold attached. rewrite El. split.
    - destruct b1.
      + destruct (proj1 B1 eq_refl) as ((Hr & -> & Hk) & H1 & H2 & H3). intros He. exists p. split; [auto|]. left. repeat (split; [assumption|]).
        destruct (child_via t p SUBJ) as [y|] eqn:Ey; [|destruct He]. apply first_kid_iff in Ey. exists y. auto.
      + destruct b2; [|intros []]. destruct (proj1 B2 eq_refl) as ((Hr & -> & Hk) & H1 & H2). intros He. exists p. split; [auto|]. right. repeat (split; [assumption|]).
        destruct (child_via t r SUBJ) as [y|] eqn:Ey; [|destruct He]. apply first_kid_iff in Ey. exists y. split; [exact Ey|].
        destruct (str_in (n_canon (H y)) relative_pronouns) eqn:Es; [destruct He|]. split; [|exact He]. intros F. apply str_in_In in F. congruence.
    - intros (q & (Hr & E) & C). injection E as -> ->. destruct C as [(K & V & Vp & NS & y & Fy & He)|(NM & N & NO & s & Fs & Nw & He)].
      + assert (b1 = true) as -> by (apply B1; auto 10). apply first_kid_iff in Fy. rewrite Fy. exact He.
      + assert (b1 = false) as ->. { destruct b1; [|reflexivity]. destruct (proj1 B1 eq_refl) as ((_ & _ & F) & _). exfalso. apply NM. left. exact F. }
        assert (b2 = true) as -> by (apply B2; auto 10). apply first_kid_iff in Fs. rewrite Fs.
        destruct (str_in (n_canon (H s)) relative_pronouns) eqn:Es; [apply str_in_In in Es; contradiction|]. exact He.
  Qed.
  Lemma all_events_split e : In e (all_events) <-> exists r, In r nodes /\
    (In e (ev_parent H t KA KO r) \/ In e (ev_neg t r) \/ (exists p, last_reg h r = Some (CPL, p) /\ In e (ev_cpl H t KA KO r p)) \/
     In e (ev_distant H t KA KO (flat_map (naked t) nodes) (flat_map (mrkd t) nodes) r)).
  Proof.
    unfold all_events. rewrite in_app_iff, !in_flat_map. unfold ev_direct. split.
    - intros [(r & Hr & He)|(r & Hr & He)]; exists r; (split; [exact Hr|]); [|auto]. rewrite !in_app_iff, parent_eq in He. destruct He as [He|[He|He]]; auto.
      destruct (last_reg h r) as [[d p]|]; [|destruct He]. destruct d; try (now destruct He). right. right. left. exists p. auto.
    - intros (r & Hr & [He|[He|[(p & El & He)|He]]]); [left; exists r|left; exists r|left; exists r|right; exists r]; (split; [exact Hr|]); try exact He.
      all: rewrite !in_app_iff, parent_eq; auto. rewrite El. auto.
  Qed.
  Theorem events_facts e : In e all_events <-> fact e.
  Proof.
    rewrite all_events_split. split.
    - intros (r & Hr & [He|[He|[(p & El & He)|He]]]).
      + eapply ev_parent_fact; eassumption.
      + apply ev_neg_iff in He. destruct He as [-> Hk]. split; assumption.
      + eapply ev_cpl_fact; [split; eassumption|exact He].
      + apply ev_distant_iff in He. destruct He as (p & A & [(K & V & Vp & NS & y & Fy & He)|(NM & N & NO & s & Fs & Nw & He)]).
        * apply ev_subjs_In in He. destruct He as (v' & z & -> & Hs & Hy). cbn [fact]. eapply subject_distant; eassumption.
        * apply ev_objs_In in He. destruct He as (v' & z & -> & Hs & Hy). cbn [fact]. eapply object_distant; eassumption.
    - assert (P : forall r d v, attached h nodes r d v -> In e (ev_parent H t KA KO r) -> exists r, In r nodes /\
        (In e (ev_parent H t KA KO r) \/ In e (ev_neg t r) \/ (exists p, last_reg h r = Some (CPL, p) /\ In e (ev_cpl H t KA KO r p)) \/
         In e (ev_distant H t KA KO (flat_map (naked t) nodes) (flat_map (mrkd t) nodes) r))) by (intros r d v [Hr _] He; exists r; auto).
      assert (PD : forall l v x a, dependent h nodes l v x -> e = EvL v a x -> (l = IOBJ /\ a = A_iobjs) \/ (l = EXIST /\ a = A_exists) \/ (l = PROP /\ a = A_props) \/ (l = IPROP /\ a = A_iprops) ->
        exists r l, attached h nodes r l v /\ In e (ev_parent H t KA KO r)).
      { intros l v x a (r & A & Hx) -> C. exists r, l. split; [exact A|]. unfold ev_parent. rewrite parent_eq, (proj2 A).
        destruct C as [[-> ->]|[[-> ->]|[[-> ->]|[-> ->]]]].
        - apply ev_list_In. exists x. auto.
        - apply ev_list_In. exists x. auto.
        - apply in_app_iff. left. apply ev_list_In. exists x. auto.
        - apply ev_iprops_In. left. exists x. auto. }
      unfold tag_of in *. intros F. destruct e as [v a x|v|v x|v x|v x].
      + destruct a; cbn [fact] in F.
        * destruct F as [r v v' y s A S Sh Co|r p y v' s A K V Vp NS Fy Sh Co].
          -- eapply P; [exact A|]. unfold ev_parent. rewrite parent_eq, (proj2 A). apply ev_subjs_In. exists v', s. apply subj_ref_iff in S. subst y. auto.
          -- exists r. split; [apply A|]. right. right. right. apply ev_distant_iff. exists p. split; [exact A|]. left. repeat (split; [assumption|]).
             exists y. split; [exact Fy|]. apply ev_subjs_In. exists v', s. auto.
        * destruct F as [r v v' y s A S Sh Co|r p s v' o A NM N NO Fs Nw Sh Co].
          -- eapply P; [exact A|]. unfold ev_parent. rewrite parent_eq, (proj2 A). apply ev_objs_In. exists v', s. apply obj_ref_iff in S. subst y. auto.
          -- exists r. split; [apply A|]. right. right. right. apply ev_distant_iff. exists p. split; [exact A|]. right. repeat (split; [assumption|]).
             exists s. split; [exact Fs|]. split; [exact Nw|]. apply ev_objs_In. exists v', o. auto.
        * edestruct (PD _ _ _ _ F eq_refl) as (r & l & A & He); [cbn; tauto|]. eapply P; eassumption.
        * edestruct (PD _ _ _ _ F eq_refl) as (r & l & A & He); [cbn; tauto|]. eapply P; eassumption.
        * edestruct (PD _ _ _ _ F eq_refl) as (r & l & A & He); [cbn; tauto|]. eapply P; eassumption.
        * edestruct (PD _ _ _ _ F eq_refl) as (r & l & A & He); [cbn; tauto|]. eapply P; eassumption.
        * destruct F as [n r y A K T Co|n r y A K T N Co]; unfold tag_of in *.
          -- exists r. split; [apply A|]. right. right. left. exists n. split; [apply A|]. unfold ev_cpl. apply no_kid_iff in K. rewrite K, (proj2 (tag_eqb_iff _ _) T). rewrite !in_app_iff. left. left. apply ev_list_In. exists y. auto.
          -- exists n. split; [apply A|]. right. right. left. exists r. split; [apply A|]. unfold ev_cpl. apply kid_iff in K. destruct K as [m K]. rewrite K, (proj2 (tag_eqb_iff _ _) T), (proj2 (noun_tag_iff _) N).
             rewrite !in_app_iff. right. apply ev_list_In. exists y. auto.
        * destruct F as [d r m l p y A K W L LL Co]. exists r. split; [apply A|]. right. right. left. exists d. split; [apply A|]. unfold ev_cpl. apply first_kid_iff in K. rewrite K.
          rewrite in_app_iff. left. apply ev_agents_In. split; [exact W|]. split; [exists l, p; auto|]. exists y. auto.
      + destruct F as [Hv K]. exists v. split; [exact Hv|]. right. left. apply ev_neg_iff. auto.
      + destruct F as [r v o o' y s A Fo Co Cy Hs]. eapply P; [exact A|]. unfold ev_parent. rewrite parent_eq, (proj2 A). apply ev_iprops_In. right. exists o, o', y.
        split; [|auto]. assert (s = child_via t v SUBJ) as ->; [|reflexivity]. destruct s as [z|].
        * symmetry. apply first_kid_iff. apply Hs. reflexivity.
        * destruct (child_via t v SUBJ) as [z|] eqn:Ez; [|reflexivity]. apply first_kid_iff in Ez. apply Hs in Ez. discriminate.
      + destruct F as [r v s0 y s p A Fs R Cs Cp NM]. eapply P; [exact A|]. unfold ev_parent. rewrite parent_eq, (proj2 A). apply in_app_iff. right. apply first_kid_iff in Fs. rewrite Fs.
        apply cop_ref in R. subst y. apply ev_cops_In. exists s, p. auto.
      + destruct F as [pp n x y A K T S N Fx Co]. unfold tag_of in *. exists pp. split; [apply A|]. right. right. left. exists n. split; [apply A|]. unfold ev_cpl. apply no_kid_iff in K.
        rewrite K, (proj2 (tag_eqb_iff _ _) T), (proj2 (noun_tag_iff _) N), S. apply first_kid_iff in Fx. rewrite Fx. rewrite !in_app_iff. left. right. apply ev_pps_In. exists y. auto.
  Qed.
End Link.
