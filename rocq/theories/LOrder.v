(** The tuples of a sentence do not depend on the order in which the arcs of its tree were registered, when no word has two
    subjects, two objects, two properties or two markers. *)
From Coq Require Import Ascii String.
From Coq Require Import List NArith ZArith Arith Bool Lia Permutation Sorted.
From Verif Require Import PyBase Regex MUtils MTree MNormal MNode MLangModel MSem SUtils STree SNode SArgs SSem LBase LText LTree LNode LNode3 LSem PArgs.
Import ListNotations.
Local Open Scope nat_scope.

(** * Arcs in two orders *)
Definition single_labels : list dep := [SUBJ; OBJ; MARK; PROP].
Definition same_set {A} (a b : list A) : Prop := forall x, In x a <-> In x b.
Definition one_parent (h : list arc) : Prop := forall l p l' p' c, In (l, p, c) h -> In (l', p', c) h -> l' = l /\ p' = p.
Definition one_kid (h : list arc) : Prop := forall l p c c', In l single_labels -> In (l, p, c) h -> In (l, p, c') h -> c' = c.

Lemma same_set_sym {A} (a b : list A) : same_set a b -> same_set b a.
Proof. intros H x. symmetry. apply H. Qed.
Lemma one_parent_set h h' : same_set h h' -> one_parent h -> one_parent h'.
Proof. intros HS H l p l' p' c H1 H2. apply (H l p l' p' c); apply HS; assumption. Qed.
Lemma one_kid_set h h' : same_set h h' -> one_kid h -> one_kid h'.
Proof. intros HS H l p c c' Hl H1 H2. apply (H l p c c' Hl); apply HS; assumption. Qed.
Lemma last_reg_set h h' : same_set h h' -> one_parent h -> forall c, last_reg h' c = last_reg h c.
Proof.
  intros HS HO c. destruct (last_reg h c) as [[l p]|] eqn:E.
  - apply last_reg_In in E. apply last_reg_unique; [|apply HS; exact E]. intros l' p' H. apply HS in H. exact (HO _ _ _ _ _ E H).
  - apply last_reg_None in E. apply last_reg_None. intros H. apply E. apply in_map_iff in H. destruct H as (a & <- & H). apply in_map. apply HS. exact H.
Qed.
Lemma first_kid_In h l x y : one_kid h -> In l single_labels -> (first_kid h l x y <-> In (l, x, y) h).
Proof.
  intros HO Hl. unfold first_kid. rewrite <- kids_In. split.
  - intros (r & ->). left. reflexivity.
  - intros H. destruct (kids h l x) as [|z r] eqn:E; [destruct H|]. exists r. f_equal. apply (HO l x y z Hl).
    + apply kids_In. rewrite E. exact H.
    + apply kids_In. rewrite E. left. reflexivity.
Qed.

Section Two.
  Variables (h h' : list arc) (H : heap) (nodes : list nat).
  Hypothesis HS : same_set h h'.
  Hypothesis HP : one_parent h.
  Hypothesis HK : one_kid h.
  Let HK' : one_kid h' := one_kid_set h h' HS HK.
  Let LR : forall c, last_reg h' c = last_reg h c := last_reg_set h h' HS HP.

  Lemma o_kid l x : has_kid h l x <-> has_kid h' l x.
  Proof. unfold has_kid. split; intros (c & Hc); exists c; apply HS; exact Hc. Qed.
  Lemma o_marked x : marked h x <-> marked h' x.
  Proof. unfold marked. rewrite !o_kid. reflexivity. Qed.
  Lemma o_conj x y : conjunct h nodes x y <-> conjunct h' nodes x y.
  Proof. unfold conjunct. rewrite !(HS _). reflexivity. Qed.
  Lemma o_coord x y : coordinated h nodes x y <-> coordinated h' nodes x y.
  Proof. unfold coordinated. rewrite o_conj. reflexivity. Qed.
  Lemma o_att c l p : attached h nodes c l p <-> attached h' nodes c l p.
  Proof. unfold attached. rewrite LR. reflexivity. Qed.
  Lemma o_first l x y : In l single_labels -> (first_kid h l x y <-> first_kid h' l x y).
  Proof. intros Hl. rewrite (first_kid_In h l x y HK Hl), (first_kid_In h' l x y HK' Hl). apply HS. Qed.
  Lemma o_mod n v : modified_by h H n v <-> modified_by h' H n v.
  Proof. unfold modified_by. rewrite LR, o_marked. reflexivity. Qed.
  Lemma o_sa v x y : subj_antecedent h H v x y -> subj_antecedent h' H v x y.
  Proof.
    destruct 1 as [y H1 H2|p y H1 H2 H3 H4 H5].
    - apply sa_rel; [exact H1|apply o_mod; exact H2].
    - apply sa_refl with (p := p); [|exact H2|rewrite LR; exact H3|exact H4|apply o_first; [cbn; auto|exact H5]].
      intros (Hr & z & Hz). apply H1. split; [exact Hr|]. exists z. apply o_mod. exact Hz.
  Qed.
  Lemma o_oa v x y : obj_antecedent h H v x y -> obj_antecedent h' H v x y.
  Proof.
    destruct 1 as [y H1 H2|y H1 H2 H3].
    - apply oa_rel; [exact H1|apply o_mod; exact H2].
    - apply oa_refl; [|exact H2|apply o_first; [cbn; auto|exact H3]].
      intros (Hr & z & Hz). apply H1. split; [exact Hr|]. exists z. apply o_mod. exact Hz.
  Qed.
End Two.

Section Rels.
  Variables (h h' : list arc) (H : heap) (nodes : list nat).
  Hypothesis HS : same_set h h'.
  Hypothesis HP : one_parent h.
  Hypothesis HK : one_kid h.
  Let HS' := same_set_sym _ _ HS.
  Let HP' := one_parent_set _ _ HS HP.
  Let HK' := one_kid_set _ _ HS HK.
  Lemma o_stands (a a' : nat -> nat -> nat -> Prop) v x y : (forall z, a v x z <-> a' v x z) -> stands_for a v x y -> stands_for a' v x y.
  Proof. intros E [F|[-> F]]; [left; apply E; exact F|right]. split; [reflexivity|]. intros z Hz. apply (F z). apply E. exact Hz. Qed.
  Lemma o_sa_iff v x y : subj_antecedent h H v x y <-> subj_antecedent h' H v x y.
  Proof. split; [apply (o_sa h h')|apply (o_sa h' h)]; assumption. Qed.
  Lemma o_oa_iff v x y : obj_antecedent h H v x y <-> obj_antecedent h' H v x y.
  Proof. split; [apply (o_oa h h')|apply (o_oa h' h)]; assumption. Qed.
  Lemma o_shares_s v v' : shares_subj h nodes v v' -> shares_subj h' nodes v v'.
  Proof. intros [E|[E F]]; [left; exact E|right]. split; [apply (o_conj h h'); assumption|]. rewrite <- (o_kid h h' HS). exact F. Qed.
  Lemma o_shares_o v v' : shares_obj h nodes v v' -> shares_obj h' nodes v v'.
  Proof. intros [E|[E F]]; [left; exact E|right]. split; [apply (o_conj h h'); assumption|]. intros l. rewrite <- (o_kid h h' HS). apply F. Qed.

  Ltac go := first [assumption | apply (o_att h h'); assumption | apply (o_coord h h'); assumption | apply (o_first h h'); [assumption|assumption|cbn; auto|assumption]
    | rewrite <- (o_kid h h' HS); assumption | rewrite <- (o_marked h h' HS); assumption | apply o_shares_s; assumption | apply o_shares_o; assumption
    | rewrite (last_reg_set h h' HS HP); assumption ].
  Lemma o_subject v x : subject h H nodes v x -> subject h' H nodes v x.
  Proof.
    destruct 1 as [x v v' y s H1 H2 H3 H4|v p y v' s H1 H2 H3 H4 H5 H6 H7 H8].
    - apply subject_direct with (x := x) (v := v) (y := y); try go. apply (o_stands _ _ v x y (o_sa_iff v x)). exact H2.
    - apply subject_distant with (v := v) (p := p) (y := y); go.
  Qed.
  Lemma o_object v x : object h H nodes v x -> object h' H nodes v x.
  Proof.
    destruct 1 as [x v v' y s H1 H2 H3 H4|v p s v' o H1 H2 H3 H4 H5 H6 H7 H8].
    - apply object_direct with (x := x) (v := v) (y := y); try go. apply (o_stands _ _ v x y (o_oa_iff v x)). exact H2.
    - apply object_distant with (v := v) (p := p) (s := s); go.
  Qed.
  Lemma o_dependent l v y : dependent h nodes l v y -> dependent h' nodes l v y.
  Proof. intros (x & H1 & H2). exists x. split; go. Qed.
  Lemma o_adjective v y : adjective h H nodes v y -> adjective h' H nodes v y.
  Proof.
    destruct 1 as [n x y H1 H2 H3 H4|n x y H1 H2 H3 H4 H5].
    - apply adj_cpl with (x := x); go.
    - apply adj_cmp with (x := x); go.
  Qed.
  Lemma o_agent v y : agent h H nodes v y -> agent h' H nodes v y.
  Proof. destruct 1 as [d x m l p y H1 H2 H3 H4 H5 H6]. apply agent_by with (x := x) (m := m) (l := l) (p := p); go. Qed.
  Lemma o_copula v e : copula_prop h H nodes v e -> copula_prop h' H nodes v e.
  Proof.
    destruct 1 as [x v s0 y s p H1 H2 H3 H4 H5 H6]. apply copula with (x := x) (s0 := s0) (y := y); try go.
    destruct H3 as [[H3 H7]|[H3 H7]]; [left; split; [exact H3|apply (o_mod h h'); assumption]|right; split; [exact H3|]].
    intros (Hr & z & Hz). apply H7. split; [exact Hr|]. exists z. apply (o_mod h h'); assumption.
  Qed.
  Lemma o_pp v e : pp_prop h H nodes v e -> pp_prop h' H nodes v e.
  Proof. destruct 1 as [q n x y H1 H2 H3 H4 H5 H6 H7]. apply participle_prop with (x := x); go. Qed.
  Lemma o_svi v e : subj_verb_iprop h nodes v e -> subj_verb_iprop h' nodes v e.
  Proof.
    destruct 1 as [x v o o' y s H1 H2 H3 H4 H5]. apply iprop with (x := x) (o := o); try go.
    intros z. rewrite H5. apply (o_first h h'); try assumption. cbn. auto.
  Qed.
  Lemma o_neg r : (In r nodes /\ exists c, In (NEG, r, c) h) <-> (In r nodes /\ exists c, In (NEG, r, c) h').
  Proof. split; intros (H1 & c & H2); (split; [exact H1|exists c; apply HS; exact H2]). Qed.
End Rels.

(** * The relations of the nodes *)
Definition same_rels (R R' : relheap) : Prop := forall v,
  r_aff (R' v) = r_aff (R v) /\ (forall a, same_set (r_list (R v) a) (r_list (R' v) a)) /\
  same_set (r_svi (R v)) (r_svi (R' v)) /\ same_set (r_copulas (R v)) (r_copulas (R' v)) /\ same_set (r_pps (R v)) (r_pps (R' v)).
Lemma same_rels_sym R R' : same_rels R R' -> same_rels R' R.
Proof.
  intros F v. destruct (F v) as (F1 & F2 & F3 & F4 & F5). split; [congruence|]. split; [intros a; apply same_set_sym; apply F2|].
  split; [apply same_set_sym; exact F3|]. split; apply same_set_sym; assumption.
Qed.
Lemma find_args_same H root h t root' h' t' nodes : registered root h = Ok t -> registered root' h' = Ok t' ->
  same_set h h' -> one_parent h -> one_kid h -> same_rels (find_args H t (fun _ => new_rels) nodes) (find_args H t' (fun _ => new_rels) nodes).
Proof.
  intros Ht Ht' HS HP HK v. pose proof (same_set_sym _ _ HS) as HS'. pose proof (one_parent_set _ _ HS HP) as HP'. pose proof (one_kid_set _ _ HS HK) as HK'.
  pose proof (C63_subjects_objects H root h t nodes Ht v) as A1. pose proof (C63_subjects_objects H root' h' t' nodes Ht' v) as A1'.
  destruct (C73_other_arguments H root h t nodes Ht v) as (B1 & B2 & B3 & B4 & B5 & B6 & B7 & B8 & B9).
  destruct (C73_other_arguments H root' h' t' nodes Ht' v) as (B1' & B2' & B3' & B4' & B5' & B6' & B7' & B8' & B9').
  pose proof (C64_negation H root h t nodes Ht v) as A2. pose proof (C64_negation H root' h' t' nodes Ht' v) as A2'.
  cbv zeta in A1, A1'.
  split; [|split; [|split; [|split]]].
  - rewrite (o_neg h h' nodes HS) in A2. rewrite <- A2' in A2.
    destruct (r_aff (find_args H t _ nodes v)), (r_aff (find_args H t' _ nodes v)); try reflexivity; [discriminate (proj2 A2 eq_refl)|discriminate (proj1 A2 eq_refl)].
  - intros [] x.
    + rewrite (proj1 (A1 x)), (proj1 (A1' x)). split; apply o_subject; assumption.
    + rewrite (proj2 (A1 x)), (proj2 (A1' x)). split; apply o_object; assumption.
    + rewrite B2, B2'. split; apply o_dependent; assumption.
    + rewrite B3, B3'. split; apply o_dependent; assumption.
    + rewrite B4, B4'. split; apply o_dependent; assumption.
    + rewrite B1, B1'. split; apply o_dependent; assumption.
    + rewrite B5, B5'. split; apply o_adjective; assumption.
    + rewrite B6, B6'. split; apply o_agent; assumption.
  - intros e. rewrite B7, B7'. split; apply o_svi; assumption.
  - intros e. rewrite B8, B8'. split; apply o_copula; assumption.
  - intros e. rewrite B9, B9'. split; apply o_pp; assumption.
Qed.

(** * The tuples *)
Section Tuples.
  Variables (H : heap) (R R' : relheap) (pp : str -> str) (nodes : list nat).
  Hypothesis E : same_rels R R'.
  Lemma e_list v a x : In x (r_list (R v) a) <-> In x (r_list (R' v) a).
  Proof. apply (proj1 (proj2 (E v)) a x). Qed.
  Lemma e_nil {A} (l l' : list A) : same_set l l' -> (l = [] <-> l' = []).
  Proof.
    intros S. split; intros ->.
    - destruct l' as [|y r]; [reflexivity|]. exfalso. apply (S y). left. reflexivity.
    - destruct l as [|y r]; [reflexivity|]. exfalso. apply (S y). left. reflexivity.
  Qed.
  Lemma e_empty v a : r_list (R v) a = [] <-> r_list (R' v) a = [].
  Proof. apply e_nil. apply (proj1 (proj2 (E v)) a). Qed.
  Lemma e_negative r : negative R r = negative R' r.
  Proof. unfold negative. rewrite (proj1 (E r)). reflexivity. Qed.
  Lemma e_even l : even_neg R l = even_neg R' l.
  Proof. unfold even_neg. rewrite (filter_ext _ _ e_negative). reflexivity. Qed.
  Lemma e_subj v s : subj_noun H R v s <-> subj_noun H R' v s.
  Proof. unfold subj_noun. rewrite e_list. reflexivity. Qed.
  Lemma e_obj v s : obj_noun H R v s <-> obj_noun H R' v s.
  Proof. unfold obj_noun. rewrite e_list. reflexivity. Qed.
  Lemma e_objv v s : obj_verb H R v s <-> obj_verb H R' v s.
  Proof. unfold obj_verb. rewrite e_list. reflexivity. Qed.
  Lemma e_linking v : linking R v <-> linking R' v.
  Proof. unfold linking. rewrite !e_empty. reflexivity. Qed.
  Lemma e_main v : main H R nodes v <-> main H R' nodes v.
  Proof. unfold main. rewrite e_linking. reflexivity. Qed.
  Lemma e_sub o : subordinate H R nodes o <-> subordinate H R' nodes o.
  Proof. unfold subordinate. split; intros (v & s & H1 & H2 & H3); exists v, s; (split; [apply e_main; exact H1|split; [apply e_subj; exact H2|apply e_objv; exact H3]]). Qed.
  Lemma e_intr v : intransitive H R v <-> intransitive H R' v.
  Proof. unfold intransitive. rewrite e_empty. reflexivity. Qed.
  Lemma e_clause s o s2 : clause_subj H R s o s2 <-> clause_subj H R' s o s2.
  Proof. unfold clause_subj. rewrite e_empty, e_subj. reflexivity. Qed.
  Lemma forallb_set {A} (f : A -> bool) l l' : same_set l l' -> forallb f l = forallb f l'.
  Proof.
    intros S. destruct (forallb f l) eqn:F; symmetry.
    - rewrite forallb_forall in *. intros x Hx. apply F. apply S. exact Hx.
    - destruct (forallb f l') eqn:F'; [|reflexivity]. rewrite <- F. symmetry. rewrite forallb_forall in *. intros x Hx. apply F'. apply S. exact Hx.
  Qed.
  Lemma forallb_fext {A} (f g : A -> bool) l : (forall x, f x = g x) -> forallb f l = forallb g l.
  Proof. intros F. induction l as [|x l IH]; cbn; [reflexivity|]. rewrite F, IH. reflexivity. Qed.
  Lemma e_group v : match r_list (R v) A_subjs with [] => false | ss => forallb (negative R) ss end =
    match r_list (R' v) A_subjs with [] => false | ss => forallb (negative R') ss end.
  Proof.
    pose proof (proj1 (proj2 (E v)) A_subjs) as S. pose proof (e_empty v A_subjs) as N.
    assert (F : forallb (negative R) (r_list (R v) A_subjs) = forallb (negative R') (r_list (R' v) A_subjs)) by (rewrite <- (forallb_fext _ _ _ e_negative); apply forallb_set; exact S).
    destruct (r_list (R v) A_subjs), (r_list (R' v) A_subjs); try reflexivity; [discriminate (proj1 N eq_refl)|discriminate (proj2 N eq_refl)|exact F].
  Qed.
  Lemma tuple_of_same t : tuple_of H R pp nodes t -> tuple_of H R' pp nodes t.
  Proof.
    destruct 1; rewrite ?e_group, ?e_even.
    - eapply t_clause_intr; try (apply e_main; eassumption); try (apply e_subj; eassumption); try (apply e_objv; eassumption); try (apply e_clause; eassumption); try (rewrite <- e_linking; assumption); apply e_intr; assumption.
    - eapply t_clause_trans; try (apply e_main; eassumption); try (apply e_subj; eassumption); try (apply e_objv; eassumption); try (apply e_clause; eassumption); try (rewrite <- e_linking; assumption); apply e_obj; assumption.
    - eapply t_clause_prop; try (apply e_main; eassumption); try (apply e_subj; eassumption); try (apply e_objv; eassumption); try (apply e_clause; eassumption). apply e_list; assumption.
    - eapply t_intr; try (apply e_main; eassumption); try (rewrite <- e_sub; assumption); try (apply e_subj; eassumption). apply e_intr; assumption.
    - eapply t_trans; try (apply e_main; eassumption); try (rewrite <- e_sub; assumption); try (apply e_subj; eassumption). apply e_obj; assumption.
    - eapply t_rec; try (apply e_main; eassumption); try (rewrite <- e_sub; assumption); try (apply e_subj; eassumption); [apply e_list|]; assumption.
    - eapply t_passive; try assumption; [rewrite <- e_linking; assumption|apply e_obj; assumption].
    - eapply t_iprop; try assumption. apply (proj1 (proj2 (proj2 (E n)))). assumption.
    - eapply t_copula; try assumption. apply (proj1 (proj2 (proj2 (proj2 (E n))))). assumption.
    - eapply t_copula_active; try eassumption; [apply (proj1 (proj2 (proj2 (proj2 (E n)))))|apply e_list]; eassumption.
    - eapply t_pp_prop; try eassumption. apply (proj2 (proj2 (proj2 (proj2 (E n))))). assumption.
    - eapply t_adj; try assumption. apply e_list. assumption.
    - eapply t_adj_active; try eassumption; apply e_list; eassumption.
  Qed.
End Tuples.
