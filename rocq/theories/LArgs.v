(** Proofs about syntax/arg_finder.py: each step adds a list of facts to the nodes. *)
From Coq Require Import Ascii String.
From Coq Require Import List NArith ZArith Arith Bool Lia.
From Verif Require Import PyBase Regex MUtils MTree MNormal MNode SUtils STree SNode SArgs LBase LText LTree LNode LNode3.
Import ListNotations.
Local Open Scope nat_scope.

Inductive ev :=
| EvL (r : nat) (a : attr) (x : nat)
| EvNeg (r : nat)
| EvS (r : nat) (e : option nat * nat * nat)
| EvC (r : nat) (e : nat * nat)
| EvP (r : nat) (e : nat * nat).
Definition attr_eqb (a b : attr) : bool := if attr_eq_dec a b then true else false.
Definition lst (v : nat) (a : attr) (e : ev) : list nat := match e with EvL r b x => if (v =? r) && attr_eqb a b then [x] else [] | _ => [] end.
Definition neg (v : nat) (e : ev) : bool := match e with EvNeg r => v =? r | _ => false end.
Definition svi (v : nat) (e : ev) := match e with EvS r x => if v =? r then [x] else [] | _ => [] end.
Definition cop (v : nat) (e : ev) := match e with EvC r x => if v =? r then [x] else [] | _ => [] end.
Definition pps (v : nat) (e : ev) := match e with EvP r x => if v =? r then [x] else [] | _ => [] end.

Definition obs (R : relheap) (es : list ev) (R' : relheap) : Prop := forall v,
  r_and (R' v) = r_and (R v) /\ r_or (R' v) = r_or (R v) /\
  r_aff (R' v) = r_aff (R v) && negb (existsb (neg v) es) /\
  (forall a, r_list (R' v) a = r_list (R v) a ++ flat_map (lst v a) es) /\
  r_svi (R' v) = r_svi (R v) ++ flat_map (svi v) es /\
  r_copulas (R' v) = r_copulas (R v) ++ flat_map (cop v) es /\
  r_pps (R' v) = r_pps (R v) ++ flat_map (pps v) es.
Lemma obs_nil R : obs R [] R.
Proof. intros v. cbn. rewrite !app_nil_r, andb_true_r. repeat split. intros a. rewrite app_nil_r. reflexivity. Qed.
Lemma obs_app R e1 R1 e2 R2 : obs R e1 R1 -> obs R1 e2 R2 -> obs R (e1 ++ e2) R2.
Proof.
  intros A B v. destruct (A v) as (A1 & A2 & A3 & A4 & A5 & A6 & A7). destruct (B v) as (B1 & B2 & B3 & B4 & B5 & B6 & B7).
  rewrite B1, B2, B3, B5, B6, B7, A1, A2, A3, A5, A6, A7, existsb_app, negb_orb, !flat_map_app, !app_assoc, andb_assoc. repeat split.
  intros a. rewrite B4, A4, flat_map_app, app_assoc. reflexivity.
Qed.

Section Steps.
  Variables (H : heap) (t : tree) (KA KO : nat -> list nat).
  Definition stable (R : relheap) : Prop := forall x, r_and (R x) = KA x /\ r_or (R x) = KO x.
  Definition cj (x : nat) := KA x ++ KO x.
  Definition agg (x : nat) := [x] ++ KA x ++ KO x.
  Lemma stable_obs R es R' : stable R -> obs R es R' -> stable R'.
  Proof. intros S O x. destruct (O x) as (E1 & E2 & _). rewrite E1, E2. apply S. Qed.
  Lemma stable_cj R x : stable R -> cconjs R x = cj x.
  Proof. intros S. unfold cconjs, cj. destruct (S x) as [-> ->]. reflexivity. Qed.
  Lemma stable_agg R x : stable R -> aggreg R x = agg x.
  Proof. intros S. unfold aggreg, agg. destruct (S x) as [-> ->]. reflexivity. Qed.

  Definition does (f : relheap -> relheap) (es : list ev) : Prop := forall R, stable R -> obs R es (f R).
  Lemma does_fold {A} (g : relheap -> A -> relheap) (f : A -> list ev) l : (forall x, In x l -> does (fun R => g R x) (f x)) ->
    does (fun R => fold_left g l R) (flat_map f l).
  Proof.
    induction l as [|x l IH]; intros Hg R S; [apply obs_nil|]. cbn [fold_left flat_map].
    assert (O : obs R (f x) (g R x)) by (apply Hg; [left; reflexivity|exact S]).
    eapply obs_app; [exact O|]. apply IH; [intros y Hy; apply Hg; right; exact Hy|]. eapply stable_obs; eassumption.
  Qed.
  Lemma does_seq f g e1 e2 : does f e1 -> does g e2 -> does (fun R => g (f R)) (e1 ++ e2).
  Proof. intros F G R S. pose proof (F R S) as O. eapply obs_app; [exact O|]. apply G. eapply stable_obs; eassumption. Qed.
  Lemma does_id : does (fun R => R) [].
  Proof. intros R _. apply obs_nil. Qed.

  Lemma flat_lst_same r a l : flat_map (lst r a) (map (EvL r a) l) = l.
  Proof. induction l as [|x l IH]; [reflexivity|]. cbn. unfold attr_eqb at 1. rewrite Nat.eqb_refl. destruct (attr_eq_dec a a); [|congruence]. cbn. f_equal. exact IH. Qed.
  Lemma flat_lst_other r a v b l : v <> r \/ b <> a -> flat_map (lst v b) (map (EvL r a) l) = [].
  Proof.
    intros N. induction l as [|x l IH]; [reflexivity|]. cbn. rewrite IH, app_nil_r. destruct (Nat.eqb_spec v r); [|reflexivity].
    unfold attr_eqb. destruct (attr_eq_dec b a); [|reflexivity]. exfalso. destruct N; contradiction.
  Qed.
  Lemma flat_none {A B C} (g : A -> list B) (f : C -> A) l : (forall x, g (f x) = []) -> flat_map g (map f l) = [].
  Proof. intros E. induction l as [|x l IH]; [reflexivity|]. cbn. rewrite E, IH. reflexivity. Qed.
  Lemma exists_none {A C} (g : A -> bool) (f : C -> A) l : (forall x, g (f x) = false) -> existsb g (map f l) = false.
  Proof. intros E. induction l as [|x l IH]; [reflexivity|]. cbn. rewrite E, IH. reflexivity. Qed.
  Lemma extend_obs R r a l : obs R (map (EvL r a) l) (extend R r a l).
  Proof.
    intros v. unfold extend, upd. rewrite (exists_none (neg v)), !flat_none by reflexivity. rewrite !app_nil_r, andb_true_r.
    destruct (Nat.eqb_spec v r) as [->|N]; cbn; repeat split.
    - intros b. destruct (attr_eq_dec b a) as [->|N]; [rewrite flat_lst_same; reflexivity|]. rewrite flat_lst_other by auto. symmetry. apply app_nil_r.
    - intros b. rewrite flat_lst_other by auto. symmetry. apply app_nil_r.
  Qed.
  Lemma upd_obs R r x e : (forall v, existsb (neg v) [e] = (v =? r) && existsb (neg r) [e]) ->
    (r_and x = r_and (R r) /\ r_or x = r_or (R r) /\ r_aff x = r_aff (R r) && negb (neg r e) /\
     (forall a, r_list x a = r_list (R r) a ++ lst r a e) /\ r_svi x = r_svi (R r) ++ svi r e /\ r_copulas x = r_copulas (R r) ++ cop r e /\
     r_pps x = r_pps (R r) ++ pps r e) ->
    (forall v, v <> r -> (forall a, lst v a e = []) /\ svi v e = [] /\ cop v e = [] /\ pps v e = []) ->
    obs R [e] (upd R r x).
  Proof.
    intros Hn (X1 & X2 & X3 & X4 & X5 & X6 & X7) Ho v. rewrite Hn. unfold upd. cbn [flat_map existsb]. rewrite !app_nil_r, orb_false_r. destruct (Nat.eqb_spec v r) as [->|N].
    - cbn [andb]. rewrite X1, X2, X3, X5, X6, X7. repeat split. intros a. rewrite X4, app_nil_r. reflexivity.
    - destruct (Ho v N) as (O1 & -> & -> & ->). cbn. rewrite !app_nil_r, andb_true_r. repeat split. intros a. rewrite O1, !app_nil_r. reflexivity.
  Qed.
  Ltac upd_tac := apply upd_obs;
    [intros v; cbn; rewrite ?andb_false_r, ?orb_false_r; try reflexivity; rewrite Nat.eqb_refl, andb_true_r; reflexivity
    |cbn; rewrite ?Nat.eqb_refl; cbn; rewrite ?app_nil_r, ?andb_true_r, ?andb_false_r; repeat split; intros; rewrite ?app_nil_r; reflexivity
    |intros v N; apply Nat.eqb_neq in N; cbn; rewrite ?N; repeat split].
  Lemma neg_obs R r : obs R [EvNeg r] (upd R r (set_neg (R r))).
  Proof. upd_tac. Qed.
  Lemma svi_obs R r e : obs R [EvS r e] (upd R r (add_svi (R r) e)).
  Proof. upd_tac. Qed.
  Lemma cop_obs R r e : obs R [EvC r e] (upd R r (add_copula (R r) e)).
  Proof. upd_tac. Qed.
  Lemma pps_obs R r e : obs R [EvP r e] (upd R r (add_pps (R r) e)).
  Proof. upd_tac. Qed.

  Definition sharers (keep : nat -> bool) (v : nat) : list nat := v :: filter keep (cj v).
  Definition ev_subjs (v s : nat) : list ev := flat_map (fun v' => map (EvL v' A_subjs) (agg s)) (sharers (fun x => negb (has_child_via t x SUBJ)) v).
  Definition ev_objs (v s : nat) : list ev := flat_map (fun v' => map (EvL v' A_objs) (agg s)) (sharers (fun x => negb (nonempty (t_children_of t x))) v).
  Lemma does_extend v a x : does (fun R => extend R v a (aggreg R x)) (map (EvL v a) (agg x)).
  Proof. intros R S. rewrite (stable_agg R x S). apply extend_obs. Qed.
  Lemma does_subjs v s : does (fun R => register_subjs t R v s) (ev_subjs v s).
  Proof.
    intros R S. unfold register_subjs, ev_subjs, sharers. rewrite (stable_cj R v S).
    refine (does_fold (fun R v' => extend R v' A_subjs (aggreg R s)) (fun v' => map (EvL v' A_subjs) (agg s)) _ _ R S). intros v' _. apply does_extend.
  Qed.
  Lemma does_objs v s : does (fun R => register_objs t R v s) (ev_objs v s).
  Proof.
    intros R S. unfold register_objs, ev_objs, sharers. rewrite (stable_cj R v S).
    refine (does_fold (fun R v' => extend R v' A_objs (aggreg R s)) (fun v' => map (EvL v' A_objs) (agg s)) _ _ R S). intros v' _. apply does_extend.
  Qed.
  Definition ev_pps (n pp prop : nat) : list ev := flat_map (fun p => [EvP n (pp, p)]) (agg prop).
  Lemma does_pps n pp prop : does (fun R => register_props_via_pp R n pp prop) (ev_pps n pp prop).
  Proof.
    intros R S. unfold register_props_via_pp, ev_pps. rewrite (stable_agg R prop S).
    refine (does_fold (fun R p => upd R n (add_pps (R n) (pp, p))) _ _ _ R S). intros p _ R' _. apply pps_obs.
  Qed.
  Definition ev_cops (s c p : nat) : list ev :=
    flat_map (fun '(s, p) => [EvC s (c, p)])
      (flat_map (fun s => map (fun p => (s, p)) (filter (fun p => negb (has_child_via_set t p MARKER_DEPS)) (agg p))) (agg s)).
  Lemma does_cops s c p : does (fun R => register_props_via_copula t R s c p) (ev_cops s c p).
  Proof.
    intros R S. unfold register_props_via_copula, ev_cops. rewrite (stable_agg R s S), (stable_agg R p S).
    refine (does_fold (fun R '(s, p) => upd R s (add_copula (R s) (c, p))) _ _ _ R S). intros [s' p'] _ R' _. apply cop_obs.
  Qed.
  Definition ev_iprops (v ip : nat) : list ev :=
    map (EvL v A_iprops) (agg ip) ++
    match child_via t v OBJ with
    | Some o => flat_map (fun '(o, ip) => [EvS o (child_via t v SUBJ, v, ip)]) (flat_map (fun o => map (fun ip => (o, ip)) (agg ip)) (agg o))
    | None => []
    end.
  Lemma does_iprops v ip : does (fun R => register_iprops t R v ip) (ev_iprops v ip).
  Proof.
    unfold register_iprops, ev_iprops.
    apply (does_seq (fun R => extend R v A_iprops (aggreg R ip)) (fun R => match child_via t v OBJ with
      | Some obj => fold_left (fun R '(o, ip) => upd R o (add_svi (R o) (child_via t v SUBJ, v, ip))) (flat_map (fun o => map (fun ip => (o, ip)) (aggreg R ip)) (aggreg R obj)) R
      | None => R end)); [apply does_extend|].
    destruct (child_via t v OBJ) as [o|]; [|apply does_id]. intros R S. rewrite (stable_agg R o S), (stable_agg R ip S).
    refine (does_fold (fun R '(o, ip) => upd R o (add_svi (R o) (child_via t v SUBJ, v, ip))) _ _ _ R S). intros [o' p'] _ R' _. apply svi_obs.
  Qed.
  Definition by_agent (d m : nat) : bool :=
    str_eqb (n_canon (H m)) (lit "by") && match t_parent t d with Some (l, _) => dep_in l [PROP; CPL] | None => false end.
  Definition ev_agents (d c m : nat) : list ev := if by_agent d m then map (EvL d A_agents) (agg c) else [].
  Lemma does_agents d c m : does (fun R => register_agents H t R d c m) (ev_agents d c m).
  Proof.
    intros R S. unfold register_agents, ev_agents. rewrite (stable_agg R c S).
    assert (E : (if by_agent d m then map (EvL d A_agents) (agg c) else []) = flat_map (fun x => if by_agent d m then [EvL d A_agents x] else []) (agg c)).
    { destruct (by_agent d m); [|induction (agg c) as [|x l IH]; [reflexivity|exact IH]]. induction (agg c) as [|x l IH]; [reflexivity|]. cbn. rewrite <- IH. reflexivity. }
    rewrite E. refine (does_fold (fun R c0 => if str_eqb (n_canon (H m)) (lit "by") then match t_parent t d with
       | Some (d0, _) => if dep_in d0 [PROP; CPL] then extend R d A_agents [c0] else R | None => R end else R) _ _ _ R S).
    intros x _ R' _. unfold by_agent. destruct (str_eqb _ _); [|apply obs_nil]. destruct (t_parent t d) as [[l p]|]; [|apply obs_nil].
    cbn [andb]. destruct (dep_in l [PROP; CPL]); [|apply obs_nil]. apply (extend_obs R' d A_agents [x]).
  Qed.

  Definition subj_ref (v x : nat) : nat :=
    match resolve_relative_pron H t v x with Some y => y | None => match resolve_subj_reflexive_pron H t v x with Some y => y | None => x end end.
  Definition obj_ref (v x : nat) : nat :=
    match resolve_relative_pron H t v x with Some y => y | None => match resolve_obj_reflexive_pron H t v x with Some y => y | None => x end end.
  Definition ev_parent (r : nat) : list ev :=
    match t_parent t r with
    | Some (SUBJ, v) => ev_subjs v (subj_ref v r)
    | Some (OBJ, v) => ev_objs v (obj_ref v r)
    | Some (IOBJ, v) => map (EvL v A_iobjs) (agg r)
    | Some (EXIST, v) => map (EvL v A_exists) (agg r)
    | Some (PROP, v) => map (EvL v A_props) (agg r) ++
        match child_via t v SUBJ with
        | Some s => ev_cops (match resolve_relative_pron H t v s with Some y => y | None => s end) v r
        | None => []
        end
    | Some (IPROP, v) => ev_iprops v r
    | _ => []
    end.
  Lemma does_parent r : does (fun R => parent_step H t R r) (ev_parent r).
  Proof.
    unfold parent_step, ev_parent. destruct (t_parent t r) as [[d v]|]; [|apply does_id]. destruct d; try apply does_id.
    all: try apply does_extend.
    all: try (apply does_iprops).
    all: try (unfold subj_ref; destruct (resolve_relative_pron H t v r); [apply does_subjs|]; destruct (resolve_subj_reflexive_pron H t v r); apply does_subjs).
    all: try (unfold obj_ref; destruct (resolve_relative_pron H t v r); [apply does_objs|]; destruct (resolve_obj_reflexive_pron H t v r); apply does_objs).
    apply (does_seq (fun R => extend R v A_props (aggreg R r)) (fun R => match child_via t v SUBJ with
        | Some subj => match resolve_relative_pron H t v subj with Some ref => register_props_via_copula t R ref v r | None => register_props_via_copula t R subj v r end
        | None => R end)); [apply does_extend|]. destruct (child_via t v SUBJ) as [s|]; [|apply does_id].
    destruct (resolve_relative_pron H t v s); apply does_cops.
  Qed.
  Definition ev_neg (r : nat) : list ev := flat_map (fun '(d, _) => if dep_eqb d NEG then [EvNeg r] else []) (t_children_of t r).
  Lemma does_neg r : does (fun R => neg_step t R r) (ev_neg r).
  Proof.
    unfold neg_step, ev_neg. refine (does_fold (fun R '(d, _) => if dep_eqb d NEG then upd R r (set_neg (R r)) else R) (fun '(d, _) => if dep_eqb d NEG then [EvNeg r] else []) _ _).
    intros [d c] _ R _. destruct (dep_eqb d NEG); [apply neg_obs|apply obs_nil].
  Qed.
  Definition ev_cpl (r p : nat) : list ev :=
    match child_via t r MARK with
    | None => if tag_eqb (n_tag (H r)) ADJ then map (EvL p A_adjs) (agg r) ++
                (if tag_in (n_tag (H p)) NOUN_TAGS then match child_via t r PROP, n_suffix (H r) with Some x, Some PAST => ev_pps p r x | _, _ => [] end else [])
              else []
    | Some m => ev_agents p r m
    end ++
    match child_via t r CMARK with
    | Some _ => if tag_eqb (n_tag (H p)) ADJ && tag_in (n_tag (H r)) NOUN_TAGS then map (EvL r A_adjs) (agg p) else []
    | None => []
    end.
  Definition naked (r : nat) : list nat :=
    match t_parent t r with
    | Some (CPL, _) => match child_via t r MARK, child_via t r IMARK, child_via t r CMARK with None, None, None => [r] | _, _, _ => [] end
    | _ => []
    end.
  Definition mrkd (r : nat) : list nat :=
    match t_parent t r with Some (CPL, _) => match child_via t r MARK with Some _ => [r] | None => [] end | _ => [] end.
  Definition ev_direct (r : nat) : list ev :=
    ev_parent r ++ ev_neg r ++ match t_parent t r with Some (CPL, p) => ev_cpl r p | _ => [] end.
  Definition does_a (f : astate -> astate) (es : list ev) (ns ms : list nat) : Prop := forall s, stable (a_rels s) ->
    obs (a_rels s) es (a_rels (f s)) /\ a_naked (f s) = a_naked s ++ ns /\ a_marked (f s) = a_marked s ++ ms.
  Lemma does_cpl r p : t_parent t r = Some (CPL, p) -> does_a (fun s => cpl_step H t s r p) (ev_cpl r p) (naked r) (mrkd r).
  Proof.
    intros Ep s S. unfold cpl_step, ev_cpl, naked, mrkd, register_adjs. rewrite Ep.
    set (s1 := match child_via t r MARK, child_via t r IMARK, child_via t r CMARK with None, None, None => _ | _, _, _ => s end).
    assert (E1 : a_rels s1 = a_rels s /\ a_marked s1 = a_marked s /\ a_naked s1 = a_naked s ++
      match child_via t r MARK, child_via t r IMARK, child_via t r CMARK with None, None, None => [r] | _, _, _ => [] end).
    { unfold s1. destruct (child_via t r MARK), (child_via t r IMARK), (child_via t r CMARK); cbn; rewrite ?app_nil_r; auto. }
    destruct E1 as (Er & Em & En). rewrite <- En. clearbody s1. clear En.
    set (s2 := match child_via t r MARK with None => _ | Some mk => {| a_rels := register_agents H t (a_rels s1) p r mk; a_naked := a_naked s1; a_marked := a_marked s1 ++ [r] |} end).
    set (es2 := match child_via t r MARK with None => _ | Some m => ev_agents p r m end).
    assert (E2 : obs (a_rels s) es2 (a_rels s2) /\ a_naked s2 = a_naked s1 /\ a_marked s2 = a_marked s ++ match child_via t r MARK with Some _ => [r] | None => [] end).
    { unfold s2, es2. destruct (child_via t r MARK) as [m|].
      - cbn. rewrite Er, Em. split; [|auto]. apply does_agents. exact S.
      - rewrite app_nil_r. destruct (tag_eqb (n_tag (H r)) ADJ); [|rewrite Er; split; [apply obs_nil|auto]]. cbn [with_rels a_rels a_naked a_marked]. rewrite Er. split; [|auto].
        refine (does_seq (fun R => extend R p A_adjs (aggreg R r)) (fun R => if tag_in (n_tag (H p)) NOUN_TAGS then
          match child_via t r PROP, n_suffix (H r) with Some prop, Some PAST => register_props_via_pp R p r prop | _, _ => R end else R) _ _ (does_extend p A_adjs r) _ (a_rels s) S).
        destruct (tag_in (n_tag (H p)) NOUN_TAGS); [|apply does_id]. destruct (child_via t r PROP); [|apply does_id]. destruct (n_suffix (H r)) as [[]|]; try apply does_id. apply does_pps. }
    destruct E2 as (O2 & N2 & M2). clearbody s2 es2. rewrite <- N2, <- M2.
    destruct (child_via t r CMARK) as [cm|]; [|rewrite app_nil_r; auto]. destruct (_ && _); [|rewrite app_nil_r; auto]. cbn. split; [|auto].
    eapply obs_app; [exact O2|]. apply (does_extend r A_adjs p). eapply stable_obs; eassumption.
  Qed.
  Lemma does_direct r : does_a (fun s => direct_step H t s r) (ev_direct r) (naked r) (mrkd r).
  Proof.
    intros s S. unfold direct_step, ev_direct. cbv zeta.
    set (s1 := with_rels (with_rels s (parent_step H t (a_rels s) r)) (neg_step t (a_rels (with_rels s (parent_step H t (a_rels s) r))) r)).
    assert (O1 : obs (a_rels s) (ev_parent r ++ ev_neg r) (a_rels s1)).
    { unfold s1. cbn. exact (does_seq (fun R => parent_step H t R r) (fun R => neg_step t R r) _ _ (does_parent r) (does_neg r) _ S). }
    assert (N1 : a_naked s1 = a_naked s /\ a_marked s1 = a_marked s) by (split; reflexivity). destruct N1 as [N1 M1]. clearbody s1.
    rewrite app_assoc.
    assert (G : forall p, t_parent t r = Some (CPL, p) -> obs (a_rels s) ((ev_parent r ++ ev_neg r) ++ ev_cpl r p) (a_rels (cpl_step H t s1 r p)) /\
      a_naked (cpl_step H t s1 r p) = a_naked s ++ naked r /\ a_marked (cpl_step H t s1 r p) = a_marked s ++ mrkd r).
    { intros p Ep. destruct (does_cpl r p Ep s1) as (O2 & N2 & M2); [eapply stable_obs; eassumption|]. rewrite N2, M2, N1, M1. split; [|auto]. eapply obs_app; eassumption. }
    destruct (t_parent t r) as [[d p]|] eqn:Ep.
    - destruct d; try (apply G; reflexivity).
      all: rewrite app_nil_r; unfold naked, mrkd; rewrite Ep, !app_nil_r; auto.
    - rewrite app_nil_r; unfold naked, mrkd; rewrite Ep, !app_nil_r; auto.
  Qed.
  Definition ev_distant (nk mk : list nat) (r : nat) : list ev :=
    match t_parent t r with
    | None => []
    | Some (d, parent) =>
      if existsb (Nat.eqb r) mk && tag_eqb (n_tag (H r)) VERB && negb (has_child_via t r SUBJ) && tag_eqb (n_tag (H parent)) VERB then
        match child_via t parent SUBJ with Some subj => ev_subjs r subj | None => [] end
      else if existsb (Nat.eqb r) nk && tag_in (n_tag (H parent)) NOUN_TAGS && negb (has_child_via t r OBJ) then
        match child_via t r SUBJ with
        | Some subj => if negb (str_in (n_canon (H subj)) relative_pronouns) then ev_objs r parent else []
        | None => []
        end
      else []
    end.
  Lemma does_distant nk mk r : does (fun R => distant_step H t nk mk R r) (ev_distant nk mk r).
  Proof.
    unfold distant_step, ev_distant. destruct (t_parent t r) as [[d p]|]; [|apply does_id].
    destruct (_ && _ && _ && _).
    - destruct (child_via t p SUBJ); [apply does_subjs|apply does_id].
    - destruct (_ && _ && _); [|apply does_id]. destruct (child_via t r SUBJ) as [s|]; [|apply does_id]. destruct (negb _); [apply does_objs|apply does_id].
  Qed.
  Theorem loops_obs R nodes : stable R ->
    let s := fold_left (direct_step H t) nodes {| a_rels := R; a_naked := []; a_marked := [] |} in
    obs R (flat_map ev_direct nodes ++ flat_map (ev_distant (flat_map naked nodes) (flat_map mrkd nodes)) nodes)
      (fold_left (distant_step H t (a_naked s) (a_marked s)) nodes (a_rels s)).
  Proof.
    intros S s.
    assert (G : does_a (fun s => fold_left (direct_step H t) nodes s) (flat_map ev_direct nodes) (flat_map naked nodes) (flat_map mrkd nodes)).
    { clear. induction nodes as [|r l IH]; intros s S; [cbn; rewrite !app_nil_r; split; [apply obs_nil|auto]|]. cbn [fold_left flat_map].
      destruct (does_direct r s S) as (O1 & N1 & M1). destruct (IH (direct_step H t s r)) as (O2 & N2 & M2); [eapply stable_obs; eassumption|].
      rewrite N2, M2, N1, M1, !app_assoc. split; [|auto]. eapply obs_app; eassumption. }
    destruct (G {| a_rels := R; a_naked := []; a_marked := [] |} S) as (O & N & M). fold s in O, N, M. cbn in O, N, M. rewrite N, M.
    eapply obs_app; [exact O|].
    refine (does_fold (distant_step H t (flat_map naked nodes) (flat_map mrkd nodes)) _ nodes _ (a_rels s) _); [intros r _; apply does_distant|].
    eapply stable_obs; eassumption.
  Qed.
End Steps.
