(** Proofs about syntax/fixer.py, syntax/chunker.py and normalization/canonicalizer.py. *)
From Coq Require Import Ascii String.
From Coq Require Import List NArith ZArith Arith Bool Lia Permutation Sorted.
From Verif Require Import PyBase Regex MUtils MTree MNormal MNode SUtils STree SNode LBase LText LTree LNode.
Import ListNotations.
Local Open Scope nat_scope.

Lemma registered_tree root h t : registered root h = Ok t -> t = tree_of root h.
Proof.
  unfold registered, tree_of. generalize (new_tree root). induction h as [|[[l p] c] h IH]; intros t0; cbn [foldM fold_left]; [intros E; injection E as <-; reflexivity|].
  destruct (Nat.eq_dec p c) as [->|Hne]; [rewrite register_child_self; discriminate|]. rewrite register_child_ok by exact Hne. cbn [rbind]. apply IH.
Qed.

(** * Fixer *)
Section Fixer.
  Variables (adjs nouns : list str) (root : nat) (h : list arc).
  Let t := tree_of root h.
  Lemma noun_tag_iff tg : tag_in tg NOUN_TAGS = true <-> noun_tag tg.
  Proof. apply tag_in_In. Qed.
  Lemma prop_dep_iff d : dep_in d PROP_DEPS = true <-> d = PROP \/ d = IPROP.
  Proof. rewrite dep_in_In. cbn. intuition congruence. Qed.

  Definition fix_cond (H : heap) (r : nat) : bool :=
    match t_children_of t r, t_parent t r with
    | [], Some (d, p) => (dep_eqb d CPL && tag_in (n_tag (H p)) NOUN_TAGS) || dep_in d PROP_DEPS
    | _, _ => false
    end.
  Definition fixed (H : heap) (r : nat) : node :=
    if fix_cond H r then
      if str_in (n_lemma (H r)) adjs && tag_in (n_tag (H r)) NOUN_TAGS then set_tag (H r) ADJ
      else if str_in (n_lemma (H r)) nouns && tag_eqb (n_tag (H r)) ADJ then set_tag (H r) NOUN else H r
    else H r.
  Lemma fix_cond_iff H r : fix_cond H r = true <-> fixable h H r.
  Proof.
    unfold fix_cond, fixable. destruct (t_children_of t r) as [|[l c] cs] eqn:E.
    - unfold t in E. rewrite (children_nil root) in E. unfold t. rewrite tree_parent. destruct (last_reg h r) as [[d p]|] eqn:EL.
      + rewrite orb_true_iff, andb_true_iff, (dep_eqb_ok d CPL), noun_tag_iff, prop_dep_iff. split.
        * intros Hc. split; [exact E|]. exists d, p. auto.
        * intros (_ & d' & p' & E' & Hc). injection E' as <- <-. exact Hc.
      + split; [discriminate|]. intros (_ & d & p & E' & _). discriminate.
    - split; [discriminate|]. intros (Hn & _). exfalso. apply (Hn l c). apply (In_children_of root). fold t. rewrite E. left. reflexivity.
  Qed.
  Lemma fix_node_eq H r x : fix_node adjs nouns t H r x = if x =? r then fixed H r else H x.
  Proof.
    unfold fix_node, fixed, fix_cond. destruct (Nat.eqb_spec x r) as [E|E].
    - subst x. destruct (t_children_of t r); [|reflexivity]. destruct (t_parent t r) as [[d p]|]; [|reflexivity]. destruct (_ || _); [|reflexivity].
      destruct (_ && _); [apply upd_same|]. destruct (_ && _); [apply upd_same|reflexivity].
    - destruct (t_children_of t r); [|reflexivity]. destruct (t_parent t r) as [[d p]|]; [|reflexivity]. destruct (_ || _); [|reflexivity].
      destruct (_ && _); [apply upd_other; exact E|]. destruct (_ && _); [apply upd_other; exact E|reflexivity].
  Qed.
  Lemma fixed_parent H r : fixable h H r -> forall H', (forall x, (exists l c, In (l, x, c) h) -> H' x = H x) -> fixable h H' r.
  Proof.
    intros (Hn & d & p & E & Hc) H' Heq. split; [exact Hn|]. exists d, p. split; [exact E|]. rewrite Heq; [exact Hc|].
    apply last_reg_In in E. eauto.
  Qed.
  Lemma fixed_inner H x : (exists l c, In (l, x, c) h) -> fixed H x = H x.
  Proof.
    intros (l & c & Hin). unfold fixed. destruct (fix_cond H x) eqn:E; [|reflexivity]. apply fix_cond_iff in E. exfalso. exact (proj1 E l c Hin).
  Qed.
  Theorem fix_all ns : NoDup ns -> forall H r, fold_left (fix_node adjs nouns t) ns H r = if existsb (Nat.eqb r) ns then fixed H r else H r.
  Proof.
    induction ns as [|a ns IH]; intros ND H r; [reflexivity|]. inversion ND; subst. cbn [fold_left existsb]. rewrite IH by assumption.
    assert (Hin : forall x, (exists l c, In (l, x, c) h) -> fix_node adjs nouns t H a x = H x).
    { intros x Hx. rewrite fix_node_eq. destruct (Nat.eqb_spec x a) as [->|]; [apply fixed_inner; exact Hx|reflexivity]. }
    destruct (Nat.eqb_spec r a) as [->|Hra]; cbn [orb].
    - assert (existsb (Nat.eqb a) ns = false) as ->.
      { destruct (existsb (Nat.eqb a) ns) eqn:E; [|reflexivity]. exfalso. apply H2. apply existsb_exists in E. destruct E as (y & Hy & E). apply Nat.eqb_eq in E. subst. exact Hy. }
      rewrite fix_node_eq, Nat.eqb_refl. reflexivity.
    - assert (Er : fix_node adjs nouns t H a r = H r) by (rewrite fix_node_eq; apply Nat.eqb_neq in Hra; rewrite Hra; reflexivity).
      destruct (existsb (Nat.eqb r) ns); [|exact Er]. unfold fixed. rewrite Er.
      assert (fix_cond (fix_node adjs nouns t H a) r = fix_cond H r) as ->; [|reflexivity].
      apply eq_true_iff_eq. rewrite !fix_cond_iff. split; intros Hf; eapply fixed_parent; try exact Hf; [symmetry|]; apply Hin; assumption.
  Qed.
End Fixer.

(** * Chunker *)
Lemma NoDup_concat_disjoint {A B} (f : A -> list B) l : NoDup l -> (forall a, In a l -> NoDup (f a)) ->
  (forall a b x, In a l -> In b l -> In x (f a) -> In x (f b) -> a = b) -> NoDup (concat (map f l)).
Proof.
  induction l as [|a l IH]; intros ND H1 H2; [constructor|]. inversion ND; subst. cbn [map concat].
  assert (HN : NoDup (concat (map f l))) by (apply IH; [assumption|intros; apply H1; right; assumption|intros; eapply H2; try (right; eassumption); eassumption]).
  specialize (H1 a (or_introl eq_refl)).
  assert (HD : forall x, In x (f a) -> ~ In x (concat (map f l))).
  { intros x Hx F. apply in_concat in F. destruct F as (y & Hy & Hxy). apply in_map_iff in Hy. destruct Hy as (b & <- & Hb).
    assert (a = b) by (eapply H2; [left; reflexivity|right; exact Hb|exact Hx|exact Hxy]). subst. contradiction. }
  clear - H1 HN HD. induction (f a) as [|x s IH]; [exact HN|]. inversion H1; subst. cbn. constructor.
  - rewrite in_app_iff. intros [F|F]; [contradiction|]. apply (HD x); [left; reflexivity|exact F].
  - apply IH; [assumption|]. intros y Hy. apply HD. right. exact Hy.
Qed.
Section Chunker.
  Variables (root : nat) (h : list arc) (H : heap) (nodes : list nat).
  Let t := tree_of root h.
  Hypothesis HND : NoDup nodes.
  Let nouns := filter (fun n => tag_in (n_tag (H n)) NOUN_TAGS) nodes.
  Definition link (c : nat) : option nat :=
    match t_parent t c with
    | Some (d, p) =>
      if dep_eqb d CPL && negb (has_child_via_set t c MARKER_DEPS) && (n_idx (H c) <? n_idx (H p)) && tag_in (n_tag (H p)) NOUN_TAGS then Some p else None
    | None => None
    end.
  Lemma link_iff c p : In c nouns /\ link c = Some p <-> compounds_with h H nodes c p.
  Proof.
    unfold nouns. rewrite filter_In, noun_tag_iff. unfold link, compounds_with. unfold t. rewrite tree_parent.
    assert (HM : negb (has_child_via_set (tree_of root h) c MARKER_DEPS) = true <-> forall l x, In l [MARK; CMARK; IMARK] -> ~ In (l, c, x) h).
    { rewrite negb_true_iff. split.
      - intros E l x Hl Hin. assert (has_child_via_set (tree_of root h) c MARKER_DEPS = true); [|congruence]. apply has_child_via_set_spec. eauto.
      - intros Hn. destruct (has_child_via_set (tree_of root h) c MARKER_DEPS) eqn:E; [|reflexivity]. apply has_child_via_set_spec in E.
        destruct E as (l & x & Hl & Hin). exfalso. exact (Hn l x Hl Hin). }
    destruct (last_reg h c) as [[d q]|].
    - destruct (dep_eqb d CPL && negb (has_child_via_set (tree_of root h) c MARKER_DEPS) && (n_idx (H c) <? n_idx (H q)) && tag_in (n_tag (H q)) NOUN_TAGS) eqn:EC.
      + apply andb_true_iff in EC. destruct EC as [EC E4]. apply andb_true_iff in EC. destruct EC as [EC E3]. apply andb_true_iff in EC. destruct EC as [E1 E2].
        apply dep_eqb_ok in E1. rewrite HM in E2. apply Nat.ltb_lt in E3. apply noun_tag_iff in E4. subst d. split.
        * intros [[Hin Hn] E]. injection E as <-. auto 10.
        * intros (Hin & Hn & Hp & E & Hl & Hm). injection E as <-. auto.
      + split; [intros [_ E]; discriminate|]. intros (Hin & Hn & Hp & E & Hl & Hm). exfalso. injection E as -> ->.
        rewrite <- HM in Hm. apply Nat.ltb_lt in Hl. apply noun_tag_iff in Hp. rewrite Hm, Hl, Hp in EC. discriminate.
    - split; [intros [_ E]; discriminate|]. intros (_ & _ & _ & E & _). discriminate.
  Qed.
  Definition pairs : list (nat * nat) := flat_map (fun c => match link c with Some p => [(p, c)] | None => [] end) nouns.
  Lemma compounds_eq : compounds H t nodes = (group Nat.eqb pairs, flat_map (fun c => match link c with Some _ => [c] | None => [] end) nouns).
  Proof.
    unfold compounds, pairs, group. fold nouns.
    assert (G : forall l d hp, fold_left (compound_step H t) l (d, hp) =
      (fold_left (fun d '(k, v) => append_to_dict_list Nat.eqb d k v) (flat_map (fun c => match link c with Some p => [(p, c)] | None => [] end) l) d,
       hp ++ flat_map (fun c => match link c with Some _ => [c] | None => [] end) l)).
    { induction l as [|c l IH]; intros d hp; [cbn; rewrite app_nil_r; reflexivity|]. cbn [fold_left flat_map]. unfold compound_step at 2.
      unfold link at 1 3. destruct (t_parent t c) as [[dp p]|]; [|rewrite IH; reflexivity].
      destruct (_ && _ && _ && _); [|rewrite IH; reflexivity]. cbn [fst snd app fold_left]. rewrite IH, <- app_assoc. reflexivity. }
    rewrite G. reflexivity.
  Qed.
  Definition subs (p : nat) : list nat := match dget Nat.eqb p (group Nat.eqb pairs) with Some l => l | None => [] end.
  Lemma subs_eq p : subs p = filter (fun c => match link c with Some q => p =? q | None => false end) nouns.
  Proof.
    unfold subs. rewrite (proj2 (group_spec Nat.eqb nat_eqb_ok pairs)).
    assert (E : values_of Nat.eqb p pairs = filter (fun c => match link c with Some q => p =? q | None => false end) nouns).
    { unfold values_of, pairs. induction nouns as [|c l IH]; [reflexivity|]. cbn [flat_map filter]. rewrite filter_app, map_app, IH.
      destruct (link c) as [q|]; [|reflexivity]. cbn. destruct (p =? q); reflexivity. }
    rewrite E. destruct (existsb _ pairs) eqn:Ex; [reflexivity|]. rewrite <- E. unfold values_of. symmetry.
    clear E. induction pairs as [|[k v] l IH]; [reflexivity|]. cbn in *. apply orb_false_iff in Ex. destruct Ex as [E1 E2]. rewrite E1. apply IH. exact E2.
  Qed.
  Lemma subs_In p c : In c (subs p) <-> compounds_with h H nodes c p.
  Proof.
    rewrite subs_eq, filter_In, <- link_iff. destruct (link c) as [q|].
    - rewrite Nat.eqb_eq. split; intros [H1 H2]; split; congruence.
    - split; intros [_ E]; discriminate.
  Qed.
  Lemma subs_NoDup p : NoDup (subs p).
  Proof. rewrite subs_eq. apply NoDup_filter. unfold nouns. apply NoDup_filter. exact HND. Qed.
  Lemma with_fun c p q : compounds_with h H nodes c p -> compounds_with h H nodes c q -> p = q.
  Proof. intros (_ & _ & _ & E1 & _) (_ & _ & _ & E2 & _). congruence. Qed.
  Lemma ic_le x r : in_compound h H nodes x r -> n_idx (H x) <= n_idx (H r).
  Proof. induction 1 as [|x y r Hc Hi IH]; [lia|]. destruct Hc as (_ & _ & _ & _ & Hl & _). lia. Qed.
  Lemma ic_linear x a b : in_compound h H nodes x a -> in_compound h H nodes x b -> in_compound h H nodes a b \/ in_compound h H nodes b a.
  Proof.
    intros Ha. revert b. induction Ha as [r|x y r Hc Hi IH]; intros b Hb; [auto|].
    inversion Hb as [|x' y' r' Hc' Hi']; subst; [right; econstructor; eassumption|].
    rewrite (with_fun _ _ _ Hc' Hc) in Hi'. apply IH. exact Hi'.
  Qed.
  Lemma chunk_below_ok fuel : forall noun, n_idx (H noun) < fuel ->
    exists B, chunk_below fuel (group Nat.eqb pairs) noun = Ok B /\ NoDup (noun :: B) /\ forall x, In x (noun :: B) <-> in_compound h H nodes x noun.
  Proof.
    induction fuel as [|f IH]; intros noun Hf; [lia|]. cbn [chunk_below]. fold (subs noun).
    destruct (subs noun) as [|c0 cs] eqn:E.
    - exists []. split; [reflexivity|]. split; [repeat constructor; intros []|]. intros x. split.
      + intros [<-|[]]. constructor.
      + intros Hi. assert (Hx : forall y, compounds_with h H nodes y noun -> False) by (intros y Hy; apply subs_In in Hy; rewrite E in Hy; exact Hy).
        left. assert (G : forall x r, in_compound h H nodes x r -> r = noun -> noun = x); [|exact (G _ _ Hi eq_refl)].
        clear - Hx. induction 1 as [|x y r Hc Hi IH]; intros ->; [reflexivity|]. specialize (IH eq_refl). subst y. destruct (Hx _ Hc).
    - rewrite <- E. clear c0 cs E.
      assert (HB : forall c, In c (subs noun) -> exists B, chunk_below f (group Nat.eqb pairs) c = Ok B /\ NoDup (c :: B) /\ forall x, In x (c :: B) <-> in_compound h H nodes x c).
      { intros c Hc. apply IH. apply subs_In in Hc. destruct Hc as (_ & _ & _ & _ & Hl & _). lia. }
      assert (HF : exists g, forall c, In c (subs noun) -> chunk_below f (group Nat.eqb pairs) c = Ok (g c) /\ NoDup (c :: g c) /\ forall x, In x (c :: g c) <-> in_compound h H nodes x c).
      { exists (fun c => match chunk_below f (group Nat.eqb pairs) c with Ok B => B | Err _ => [] end). intros c Hc. destruct (HB c Hc) as (B & E & HN & Hx). rewrite E. auto. }
      destruct HF as [g HG].
      rewrite (mapM_total _ (fun c => c :: g c)); [|intros c Hc; destruct (HG c Hc) as (E & _); rewrite E; reflexivity]. cbn [rbind].
      exists (concat (map (fun c => c :: g c) (subs noun))). split; [reflexivity|].
      assert (HIn : forall x, In x (concat (map (fun c => c :: g c) (subs noun))) <-> exists c, compounds_with h H nodes c noun /\ in_compound h H nodes x c).
      { intros x. rewrite in_concat. split.
        - intros (l & Hl & Hx). apply in_map_iff in Hl. destruct Hl as (c & <- & Hc). exists c. split; [apply subs_In; exact Hc|]. apply (HG c Hc). exact Hx.
        - intros (c & Hc & Hx). apply subs_In in Hc. exists (c :: g c). split; [apply (in_map (fun c => c :: g c)); exact Hc|]. apply (HG c Hc). exact Hx. }
      split.
      + constructor.
        * rewrite HIn. intros (c & Hc & Hi). apply ic_le in Hi. destruct Hc as (_ & _ & _ & _ & Hl & _). lia.
        * apply NoDup_concat_disjoint; [apply subs_NoDup|intros c Hc; apply (HG c Hc)|].
          intros a b x Ha Hb Hxa Hxb. apply (HG a Ha) in Hxa. apply (HG b Hb) in Hxb. apply subs_In in Ha, Hb.
          assert (G : forall a b, compounds_with h H nodes a noun -> compounds_with h H nodes b noun -> in_compound h H nodes a b -> a = b).
          { clear - HND. intros a b Ha Hb Hi. inversion Hi as [|x' y r Hc Hi']; subst; [reflexivity|]. exfalso.
            rewrite (with_fun _ _ _ Hc Ha) in Hi'. apply ic_le in Hi'. destruct Hb as (_ & _ & _ & _ & Hl & _). lia. }
          destruct (ic_linear x a b Hxa Hxb) as [Hi|Hi]; [apply G; assumption|symmetry; apply G; assumption].
      + intros x. split.
        * intros [<-|Hx]; [constructor|]. apply HIn in Hx. destruct Hx as (c & Hc & Hi).
          assert (Ht : forall a b c, in_compound h H nodes a b -> in_compound h H nodes b c -> in_compound h H nodes a c).
          { clear. intros a b c H1. induction H1; intros H2; [exact H2|]. econstructor; [eassumption|auto]. }
          eapply Ht; [exact Hi|]. econstructor; [exact Hc|constructor].
        * intros Hi. assert (G : forall x r, in_compound h H nodes x r -> r = noun -> x = noun \/ exists c, compounds_with h H nodes c noun /\ in_compound h H nodes x c).
          { clear. induction 1 as [|x y r Hc Hi IH]; intros ->; [auto|]. right. destruct (IH eq_refl) as [->|(c & Hc' & Hi')].
            - exists x. split; [exact Hc|constructor].
            - exists c. split; [exact Hc'|]. econstructor; eassumption. }
          destruct (G _ _ Hi eq_refl) as [->|Hx]; [left; reflexivity|right; apply HIn; exact Hx].
  Qed.

  Definition the_chunk (r : nat) : res str := chunk_of H (group Nat.eqb pairs) r.
  Definition heads : list nat :=
    filter (fun n => dmem Nat.eqb n (group Nat.eqb pairs) && negb (existsb (Nat.eqb n) (flat_map (fun c => match link c with Some _ => [c] | None => [] end) nouns))) nodes.
  Lemma heads_In r : In r heads <-> In r nodes /\ (exists c, compounds_with h H nodes c r) /\ (forall p, ~ compounds_with h H nodes r p).
  Proof.
    unfold heads. rewrite filter_In, andb_true_iff, negb_true_iff.
    assert (H1 : dmem Nat.eqb r (group Nat.eqb pairs) = true <-> exists c, compounds_with h H nodes c r).
    { rewrite (dmem_In _ nat_eqb_ok), (proj1 (group_spec Nat.eqb nat_eqb_ok pairs)). rewrite (In_firsts Nat.eqb nat_eqb_ok). unfold pairs. rewrite in_map_iff. split.
      - intros ([p c] & E & Hin). cbn in E. subst p. apply in_flat_map in Hin. destruct Hin as (c' & Hc' & Hin). destruct (link c') as [q|] eqn:El; [|destruct Hin].
        destruct Hin as [E|[]]. injection E as -> ->. exists c. apply link_iff. auto.
      - intros (c & Hc). apply link_iff in Hc. destruct Hc as [Hc El]. exists (r, c). split; [reflexivity|]. apply in_flat_map. exists c. split; [exact Hc|]. rewrite El. left. reflexivity. }
    assert (H2 : existsb (Nat.eqb r) (flat_map (fun c => match link c with Some _ => [c] | None => [] end) nouns) = true <-> exists p, compounds_with h H nodes r p).
    { rewrite existsb_exists. split.
      - intros (y & Hy & E). apply Nat.eqb_eq in E. subst y. apply in_flat_map in Hy. destruct Hy as (c & Hc & Hin). destruct (link c) as [p|] eqn:El; [|destruct Hin].
        destruct Hin as [->|[]]. exists p. apply link_iff. auto.
      - intros (p & Hp). apply link_iff in Hp. destruct Hp as [Hc El]. exists r. split; [|apply Nat.eqb_refl]. apply in_flat_map. exists r. split; [exact Hc|]. rewrite El. left. reflexivity. }
    rewrite H1. split.
    - intros (Hn & Hc & Hp). split; [exact Hn|]. split; [exact Hc|]. intros p Hp'. assert (existsb (Nat.eqb r) (flat_map (fun c => match link c with Some _ => [c] | None => [] end) nouns) = true) by (apply H2; eauto). congruence.
    - intros (Hn & Hc & Hp). split; [exact Hn|]. split; [exact Hc|]. destruct (existsb _ _) eqn:E; [|reflexivity]. destruct (proj1 H2 eq_refl) as [p Hp']. exfalso. exact (Hp p Hp').
  Qed.
  Lemma insert_ext {A} (le1 le2 : A -> A -> bool) x l : (forall a b, le1 a b = le2 a b) -> insert le1 x l = insert le2 x l.
  Proof. intros E. induction l as [|y l IH]; cbn; [reflexivity|]. rewrite E, IH. reflexivity. Qed.
  Lemma isort_ext {A} (le1 le2 : A -> A -> bool) l : (forall a b, le1 a b = le2 a b) -> isort le1 l = isort le2 l.
  Proof. intros E. unfold isort. induction l as [|y l IH]; cbn; [reflexivity|]. rewrite IH. apply insert_ext. exact E. Qed.
  Lemma chunk_of_ext H' r : (forall x, n_idx (H' x) = n_idx (H x) /\ n_lemma (H' x) = n_lemma (H x)) -> chunk_of H' (group Nat.eqb pairs) r = the_chunk r.
  Proof.
    intros E. unfold the_chunk, chunk_of. rewrite (proj1 (E r)). destruct (chunk_below _ _ _) as [B|e]; [|reflexivity]. cbn [rbind]. f_equal. f_equal.
    rewrite (isort_ext _ (fun a b => n_idx (H a) <=? n_idx (H b))) by (intros a b; rewrite (proj1 (E a)), (proj1 (E b)); reflexivity).
    apply map_ext. intros x. apply E.
  Qed.
  Lemma the_chunk_ok r : exists l, the_chunk r = Ok (join COMPOUND_JOIN (map (fun x => n_lemma (H x)) l)) /\ NoDup l /\
    (forall x, In x l <-> in_compound h H nodes x r) /\ StronglySorted (fun a b => n_idx (H a) <= n_idx (H b)) l.
  Proof.
    destruct (chunk_below_ok (S (n_idx (H r))) r (Nat.lt_succ_diag_r _)) as (B & E & HN & HB). unfold the_chunk, chunk_of. rewrite E. cbn [rbind].
    exists (isort (fun a b => n_idx (H a) <=? n_idx (H b)) (r :: B)). split; [reflexivity|]. split; [|split].
    - eapply Permutation_NoDup; [apply isort_perm|exact HN].
    - intros x. rewrite <- HB. split; intros Hx; [eapply Permutation_in; [apply Permutation_sym, isort_perm|exact Hx]|eapply Permutation_in; [apply isort_perm|exact Hx]].
    - assert (HS : StronglySorted (fun a b => (n_idx (H a) <=? n_idx (H b)) = true) (isort (fun a b => n_idx (H a) <=? n_idx (H b)) (r :: B))).
      { apply isort_sorted; [intros x y; rewrite !Nat.leb_le; lia|intros x y z A1 A2; apply Nat.leb_le in A1, A2; apply Nat.leb_le; lia]. }
      clear - HS. induction HS as [|x l HS IH HF]; [constructor|]. constructor; [exact IH|]. eapply Forall_impl; [|exact HF]. intros y Hy. apply Nat.leb_le. exact Hy.
  Qed.
  Theorem chunk_ok : exists H', chunk H t nodes = Ok H' /\
    (forall r, ~ In r heads -> H' r = H r) /\
    (forall r, In r heads -> exists c, the_chunk r = Ok c /\ H' r = set_chunk (H r) c).
  Proof.
    unfold chunk. rewrite compounds_eq. fold heads.
    assert (HN : NoDup heads) by (unfold heads; apply NoDup_filter; exact HND).
    assert (G : forall l H1, NoDup l -> (forall x, n_idx (H1 x) = n_idx (H x) /\ n_lemma (H1 x) = n_lemma (H x)) -> (forall r, In r l -> H1 r = H r) ->
      exists H', foldM (fun h' root0 => let! c := chunk_of h' (group Nat.eqb pairs) root0 in Ok (upd h' root0 (set_chunk (h' root0) c))) H1 l = Ok H' /\
        (forall r, ~ In r l -> H' r = H1 r) /\ (forall r, In r l -> exists c, the_chunk r = Ok c /\ H' r = set_chunk (H r) c)).
    { induction l as [|a l IH]; intros H1 ND Hx Hl; [exists H1; split; [reflexivity|]; split; [reflexivity|intros r []]|]. inversion ND; subst.
      cbn [foldM]. rewrite (chunk_of_ext H1 a Hx). destruct (the_chunk_ok a) as (lc & Ec & _). rewrite Ec. cbn [rbind].
      set (c := join COMPOUND_JOIN (map (fun x => n_lemma (H x)) lc)) in *.
      destruct (IH (upd H1 a (set_chunk (H1 a) c))) as (H' & E' & Ho & Hi).
      - assumption.
      - intros x. unfold upd. destruct (Nat.eqb_spec x a) as [->|]; [cbn; apply Hx|apply Hx].
      - intros r Hr. rewrite upd_other; [apply Hl; right; exact Hr|]. intros ->. contradiction.
      - exists H'. split; [exact E'|]. split.
        + intros r Hr. rewrite Ho by (intros F; apply Hr; right; exact F). apply upd_other. intros ->. apply Hr. left. reflexivity.
        + intros r [<-|Hr]; [|apply Hi; exact Hr]. exists c. split; [exact Ec|]. rewrite Ho by assumption. rewrite upd_same. f_equal. apply Hl. left. reflexivity. }
    destruct (G heads H HN) as (H' & E & Ho & Hi); [auto|auto|]. exists H'. auto.
  Qed.
End Chunker.

(** * Canonicalizer *)
Lemma particle_compound_eq l n : particle_compound l n = join (lit " ") (l :: n_particles n).
Proof. unfold particle_compound. destruct (n_particles n); reflexivity. Qed.
Lemma subject_form_eq s : dget str_eqb s object_to_subject = subject_form s.
Proof. unfold subject_form, object_to_subject. cbn [map dget find fst snd]. repeat (destruct (str_eqb s _); [reflexivity|]). reflexivity. Qed.
Lemma canonicalize_ok lemmatize n : (n_tag n = ADJ -> exists ls, lemmatize (n_standard n) VERB = Ok ls) -> exists n', canonicalize lemmatize n = Ok n'.
Proof.
  intros HA. unfold canonicalize. destruct (n_tag n) eqn:E; try (eexists; reflexivity).
  all: try (destruct (n_chunk n) as [[|]|]; eexists; reflexivity).
  all: try (destruct (dget str_eqb (n_lemma n) object_to_subject); eexists; reflexivity).
  destruct (HA eq_refl) as [ls ->]. eexists. reflexivity.
Qed.
Lemma canonicalize_canonical lemmatize n n' : canonicalize lemmatize n = Ok n' -> canonical n (n_canon n').
Proof.
  unfold canonicalize. rewrite subject_form_eq. intros E. destruct (n_tag n) eqn:Et.
  all: try (destruct (subject_form (n_lemma n)) eqn:Es).
  all: try (destruct (n_chunk n) as [[|c ch]|] eqn:Ec).
  all: try (destruct (lemmatize (n_standard n) VERB) as [ls|e]; [|discriminate]; cbn [rbind] in E).
  all: injection E as <-; unfold set_canon; cbn [n_canon]; rewrite ?particle_compound_eq.
  all: first [ apply can_particles; rewrite Et; auto; fail | apply can_pron; [exact Et|exact Es] | apply can_chunk; [exact Et|exact Ec|discriminate]
             | apply can_lemma; rewrite ?Et; try discriminate; auto; intros; congruence ].
Qed.
Lemma canonical_fun n a b : canonical n a -> canonical n b -> a = b.
Proof.
  intros Ha Hb. inversion Ha; inversion Hb; subst; try congruence.
  all: repeat match goal with H : _ \/ _ |- _ => destruct H end; try congruence.
  all: repeat match goal with H : ?x = ?y -> _, K : ?x = ?y |- _ => specialize (H K) end; repeat match goal with H : _ \/ _ |- _ => destruct H end; try congruence.
Qed.
