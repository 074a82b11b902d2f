(** Properties C33, C34, C72: the nodes made from a parse. *)
From Coq Require Import Ascii String.
From Coq Require Import List NArith ZArith Arith Bool Lia Permutation Sorted.
From Verif Require Import PyBase Regex MUtils MTree MParser MNormal MNode SUtils STree SNode SParser LBase LText LTree LParser LUdb LNode LNode2.
Import ListNotations.
Local Open Scope nat_scope.

(** * C33 *)
Theorem C33_nodes : forall U tokens tags root h t,
  length tags = length tokens -> parse_ok (length tokens) root h -> registered root h = Ok t ->
  exists H d nt, nodify U tokens tags (Some t) = Ok (H, d, Some nt) /\
    NoDup (map fst d) /\ NoDup (map snd d) /\
    (forall i r, In (i, r) d -> n_idx (H r) = i /\ i < length tokens /\ (h = [] \/ takes_part h i) /\
       (forall l p, t_parent nt r = Some (l, p) -> ~ functional l)).
Proof.
  intros U tokens tags root h t Ht HP Hr. destruct (nodify_all U tokens tags root h t Ht HP Hr) as (H & d & nt & ref & E & H1 & H2 & H3 & _).
  exists H, d, nt. split; [exact E|]. split; [exact H1|]. split; [exact H2|]. intros i r Hi. destruct (H3 i r Hi) as (A & B & C & D & _). auto.
Qed.
(** The hypotheses hold for every tree the parser makes. *)
Theorem C33_parser_trees : forall n p0 ts p t, start n p0 -> run p0 ts p -> build_tree p = Ok (Some t) ->
  length (p_tags p) = n /\ exists root h, registered root h = Ok t /\ parse_ok n root h.
Proof.
  intros n p0 ts p t Hs Hr E. destruct (parser_parse_ok n p0 ts p Hs Hr) as [Lt [[E' _]|(root & t' & _ & E' & Hreg & HP & _)]]; rewrite E' in E; [discriminate|].
  injection E as ->. split; [exact Lt|]. exists root, (p_arcs p). auto.
Qed.

(** "He gave up New York" with a determiner: [0] he, [1] gave, [2] up, [3] New, [4] York, [5] the *)
Definition w_tokens : list str := map lit ["He"; "gave"; "up"; "New"; "York"; "the"]%string.
Definition w_tags : list tag := [PRON; VERB; ADV; PROPN; PROPN; DET].
Definition w_arcs : list arc := [(SUBJ, 1, 0); (PART, 1, 2); (OBJ, 1, 3); (FLAT, 3, 4); (ART, 3, 5)].
Lemma acyclic_by (f : nat -> nat) h : (forall a, In a h -> f (a_parent a) < f (a_child a)) -> acyclic h.
Proof.
  intros Hf. assert (G : forall a b, path h a b -> f a < f b).
  { induction 1 as [l a b H|l a b c H _ IH]; [apply (Hf _ H)|]. specialize (Hf _ H). cbn in Hf. lia. }
  intros a Hp. specialize (G a a Hp). lia.
Qed.
Lemma w_parse : parse_ok 6 1 w_arcs.
Proof.
  split; [intros a Ha; cbn in Ha; repeat destruct Ha as [<-|Ha]; cbn; try lia; destruct Ha|].
  split. { apply (acyclic_by (fun x => nth x [1; 0; 1; 2; 3; 3] 0)). intros a Ha. cbn in Ha. repeat destruct Ha as [<-|Ha]; cbn; try lia; destruct Ha. }
  split; [lia|]. split; [cbn; intuition lia|]. intros _. left. reflexivity.
Qed.
Example C33_witness : exists t H d nt, registered 1 w_arcs = Ok t /\ nodify ascii_udb w_tokens w_tags (Some t) = Ok (H, d, Some nt) /\
  map (fun p => (fst p, n_original (H (snd p)), n_particles (H (snd p)))) d =
    [(4, lit "New York", []); (1, lit "gave", [lit "up"]); (0, lit "He", [])].
Proof. do 4 eexists. split; [reflexivity|]. split; [vm_compute; reflexivity|]. vm_compute. reflexivity. Qed.

(** * C34: refuted. Of two tokens attached by FLAT to the same head, the last one only is kept. *)
Theorem C34_refuted : exists U tokens tags root h t H d nt w,
  length tags = length tokens /\ parse_ok (length tokens) root h /\ registered root h = Ok t /\
  nodify U tokens tags (Some t) = Ok (H, d, Some nt) /\
  In (FLAT, 0, 1) h /\ In (FLAT, 0, 2) h /\ nth_error tokens 1 = Some w /\
  (forall i r, In (i, r) d -> contains (n_original (H r)) w = false).
Proof.
  exists ascii_udb, (map lit ["Anna"; "Maria"; "Ortiz"]%string), [PROPN; PROPN; PROPN], 0, [(FLAT, 0, 1); (FLAT, 0, 2)].
  do 5 eexists. split; [reflexivity|]. split.
  { split; [intros a Ha; cbn in Ha; repeat destruct Ha as [<-|Ha]; cbn; try lia; destruct Ha|].
    split; [apply (acyclic_by (fun x => nth x [0; 1; 1] 0)); intros a Ha; cbn in Ha; repeat destruct Ha as [<-|Ha]; cbn; try lia; destruct Ha|].
    split; [cbn; lia|]. split; [cbn; intuition lia|]. intros _. left. reflexivity. }
  split; [reflexivity|]. split; [vm_compute; reflexivity|]. split; [left; reflexivity|]. split; [right; left; reflexivity|]. split; [reflexivity|].
  intros i r [E|[]]. injection E as <- <-. vm_compute. reflexivity.
Qed.
(** It holds for a name that does not branch, whose tokens have no other children by FLAT than the next token and whose
    head has no particle: the text is made of all the tokens, in order from the head. Missing: branching names, and tokens
    of a name that have children of their own at its end. *)
Theorem C34_partial : forall U tokens tags root h t a b l,
  length tags = length tokens -> parse_ok (length tokens) root h -> registered root h = Ok t ->
  flat_chain h a (a :: b :: l) -> (forall p, last_reg h a <> Some (FLAT, p)) -> kids h PART a = [] ->
  exists H d nt x words r, nodify U tokens tags (Some t) = Ok (H, d, Some nt) /\
    (exists front, a :: b :: l = front ++ [x]) /\ Forall2 (fun i w => nth_error tokens i = Some w) (a :: b :: l) words /\
    n_idx (H r) = x /\ n_original (H r) = join (lit " ") words /\
    (In (x, r) d \/ exists lb p, t_parent nt r = Some (lb, p) /\ functional lb).
Proof.
  intros U tokens tags root h t a b l Ht HP Hr HC Htop HK. destruct (nodify_all U tokens tags root h t Ht HP Hr) as (H & d & nt & ref & E & _ & _ & _ & H4 & H5 & _).
  destruct (flat_chain_leaf h a _ HC [] (up_stop h FLAT a Htop)) as (anc & x & Ec & Hx & Hu). cbn [app] in Ec.
  assert (Hne : h <> []).
  { intros ->. inversion HC; subst. discriminate. }
  destruct anc as [|a' anc]; [destruct l; discriminate|]. assert (a' = a) by (injection Ec; congruence). subst a'.
  assert (HF : flat_leaf h x (a :: anc)) by (repeat split; [exact Hx|exact Hu|discriminate]).
  assert (Hb : forall y, In y (a :: b :: l) -> y < length tokens).
  { intros y Hy. rewrite Ec in Hy. apply in_app_iff in Hy. destruct HP as (Hb & _). destruct Hy as [Hy|[<-|[]]].
    - exact (up_chain_bound h FLAT x (a :: anc) _ Hb Hu y Hy).
    - destruct (up_chain_snoc _ _ _ _ Hu) as (p & q & _ & El & _); [discriminate|]. apply last_reg_In in El. apply Hb in El. apply El. }
  destruct (ref a) as [r|] eqn:Ea.
  2:{ exfalso. assert (Hlt : a < length tokens) by (apply Hb; left; reflexivity). destruct (H5 Hne a Hlt Ea) as (Hno & _). exact (Hno x anc HF). }
  destruct (H4 a r Ea) as [Hd HM]. specialize (HM Hne).
  exists H, d, nt, x, (map (fun i => nth i tokens []) (a :: b :: l)), r. split; [exact E|]. split; [exists (a :: anc); exact Ec|]. split.
  { revert Hb. generalize (a :: b :: l) as is. induction is as [|i is IH]; intros Hb; [constructor|]. constructor; [apply nth_error_nth'; apply Hb; left; reflexivity|].
    apply IH. intros y Hy. apply Hb. right. exact Hy. }
  assert (HX : H r = flat_node U tokens tags x (a :: anc)).
  { remember (H r) as nd eqn:Er. destruct HM as [k _ HK'|k y r' _ HFy|k _ _ _ Hnf _].
    - congruence.
    - assert (Hyx : y = x).
      { destruct HFy as (Hyc & Huy & _). pose proof (up_chain_lpath _ _ _ _ Huy k (or_introl eq_refl)) as HL.
        destruct (flat_chain_only_leaf h k _ HC y) as [l' El]; [apply (flat_chain_below h k _ HC); exact HL|exact Hyc|].
        rewrite Ec in El. apply app_inj_tail in El. symmetry. apply El. }
      subst y. destruct HF as (_ & Hu1 & _). destruct HFy as (_ & Hu2 & _). rewrite (up_chain_fun h FLAT x _ Hu1 _ Hu2). reflexivity.
    - exfalso. apply (Hnf x (k :: anc) HF). right. left. reflexivity. }
  rewrite HX. split; [reflexivity|]. split; [rewrite Ec; reflexivity|]. rewrite HX in Hd. exact Hd.
Qed.
Example C34_partial_witness : flat_chain w_arcs 3 [3; 4] /\ (forall p, last_reg w_arcs 3 <> Some (FLAT, p)) /\ kids w_arcs PART 3 = [].
Proof.
  split; [|split; [intros p; cbn; discriminate|reflexivity]]. apply fc_more with (b := 4); [reflexivity|reflexivity|]. apply fc_end.
  intros l c Hin. cbn in Hin. intuition discriminate.
Qed.

(** * C72: every other word of the tree makes its own node, with its particles, and keeps its dependencies *)
Theorem C72_words : forall U tokens tags root h t,
  length tags = length tokens -> parse_ok (length tokens) root h -> registered root h = Ok t -> h <> [] ->
  exists H d nt ref, nodify U tokens tags (Some t) = Ok (H, d, Some nt) /\
    (forall k, own_word h k -> exists r w tg, ref k = Some r /\ nth_error tokens k = Some w /\ nth_error tags k = Some tg /\
       n_idx (H r) = k /\ n_original (H r) = w /\ n_tag (H r) = tg /\ n_standard (H r) = lower U w /\ n_lemma (H r) = lower U w /\
       (exists ps ws, particles_after h k ps /\ Forall2 (fun i w' => nth_error tokens i = Some w') ps ws /\ n_particles (H r) = map (lower U) ws) /\
       (n_inf_to (H r) = true <-> exists i w', In (PART, k, i) h /\ i < k /\ nth_error tokens i = Some w' /\ lower U w' = lit "to") /\
       (In (k, r) d \/ exists l p, t_parent nt r = Some (l, p) /\ functional l)) /\
    (forall k c r rc l, own_word h k -> own_word h c -> ref k = Some r -> ref c = Some rc ->
       (In (l, rc) (t_children_of nt r) <-> In (l, k, c) h)).
Proof.
  intros U tokens tags root h t Ht HP Hr Hne. destruct (nodify_all U tokens tags root h t Ht HP Hr) as (H & d & nt & ref & E & _ & _ & _ & H4 & H5 & H6 & _).
  exists H, d, nt, ref. split; [exact E|]. split; [|intros k c r rc l _ _; apply H6].
  intros k (Htp & Hnf & Hnp). assert (Hb : forall a, In a h -> a_parent a < length tokens /\ a_child a < length tokens) by apply HP.
  assert (Hk : k < length tokens) by (destruct Htp as (a & Ha & [<-|<-]); apply Hb in Ha; apply Ha).
  destruct (ref k) as [r|] eqn:Ek.
  2:{ exfalso. destruct (H5 Hne k Hk Ek) as (_ & _ & [F|[(x & a & q & HF & Hin)|(p & Hp)]]); [exact (F Htp)| |exact (Hnp p Hp)].
      apply (Hnf x (a :: q) HF). destruct Hin as [Hin|Hin]; [left; exact Hin|right; right; exact Hin]. }
  destruct (H4 k r Ek) as [Hd HM]. specialize (HM Hne).
  exists r, (nth k tokens []), (nth k tags TPAD). split; [reflexivity|]. split; [apply nth_error_nth'; exact Hk|]. split; [apply nth_error_nth'; lia|].
  assert (HX : n_idx (H r) = k /\ n_original (H r) = nth k tokens [] /\ n_tag (H r) = nth k tags TPAD /\ n_standard (H r) = lower U (nth k tokens []) /\
     n_lemma (H r) = lower U (nth k tokens []) /\
     n_particles (H r) = map (fun i => lower U (nth i tokens [])) (filter (Nat.ltb k) (isort Nat.leb (kids h PART k))) /\
     (n_inf_to (H r) = true <-> exists i, In (PART, k, i) h /\ i <= k /\ lower U (nth i tokens []) = lit "to")).
  { remember (H r) as nd eqn:Er. destruct HM as [k _ HK'|k y r' _ HFy|k _ _ HK _ _].
    - destruct (fold_part_fields U tokens tags h Ht k) as (F1 & F2 & F3 & F4 & F5 & F6 & F7 & _). repeat (split; [assumption|]). exact F5.
    - exfalso. apply (Hnf y (k :: r') HFy). right. left. reflexivity.
    - rewrite HK. cbn. repeat (split; [reflexivity|]). split; [discriminate|]. intros (i & Hi & _). apply kids_In in Hi. rewrite HK in Hi. destruct Hi. }
  destruct HX as (X1 & X2 & X3 & X4 & X5 & X6 & X7). repeat (split; [assumption|]). split; [|split].
  - exists (filter (Nat.ltb k) (isort Nat.leb (kids h PART k))), (map (fun i => nth i tokens []) (filter (Nat.ltb k) (isort Nat.leb (kids h PART k)))).
    split; [split|split].
    + assert (HS : StronglySorted (fun x y => Nat.leb x y = true) (isort Nat.leb (kids h PART k))).
      { apply isort_sorted; [intros x y; rewrite !Nat.leb_le; lia|]. intros x y z A B. apply Nat.leb_le in A. apply Nat.leb_le in B. apply Nat.leb_le. lia. }
      clear - HS. induction HS as [|x s HS IH HF]; [constructor|]. cbn [filter]. destruct (k <? x); [|exact IH]. constructor; [exact IH|].
      rewrite Forall_forall in *. intros y Hy. apply filter_In in Hy. apply Nat.leb_le. apply HF. apply Hy.
    + assert (HPm : forall l1 l2, Permutation l1 l2 -> Permutation (filter (Nat.ltb k) l1) (filter (Nat.ltb k) l2)).
      { induction 1; cbn [filter]; [constructor| | |exact (Permutation_trans IHPermutation1 IHPermutation2)].
        - destruct (k <? x); [apply perm_skip|]; assumption.
        - destruct (k <? x); destruct (k <? y); try reflexivity. apply perm_swap. }
      apply HPm. apply isort_perm.
    + assert (HI : forall i, In i (filter (Nat.ltb k) (isort Nat.leb (kids h PART k))) -> i < length tokens).
      { intros i Hi. apply filter_In in Hi. destruct Hi as [Hi _]. apply (Permutation_in _ (Permutation_sym (isort_perm Nat.leb _))) in Hi. apply kids_In in Hi. apply Hb in Hi. apply Hi. }
      revert HI. generalize (filter (Nat.ltb k) (isort Nat.leb (kids h PART k))) as is. induction is as [|i is IH]; intros HI; [constructor|].
      constructor; [apply nth_error_nth'; apply HI; left; reflexivity|]. apply IH. intros j Hj. apply HI. right. exact Hj.
    + rewrite X6, map_map. reflexivity.
  - rewrite X7. split; intros (i & Hi).
    + destruct Hi as (Hi & Hle & Et). exists i, (nth i tokens []). split; [exact Hi|]. split; [|split; [apply nth_error_nth'; apply Hb in Hi; apply Hi|exact Et]].
      destruct (Nat.eq_dec i k) as [->|]; [|lia]. exfalso. destruct HP as (_ & Hac & _). apply (Hac k). eapply path_one. exact Hi.
    + destruct Hi as (w' & Hi & Hlt & Ew & Et). exists i. split; [exact Hi|]. split; [lia|]. rewrite (nth_error_nth _ _ _ Ew). exact Et.
  - rewrite X1 in Hd. exact Hd.
Qed.
Example C72_witness : own_word w_arcs 1 /\ particles_after w_arcs 1 [2] /\ own_word w_arcs 5.
Proof.
  assert (HF : forall x anc, flat_leaf w_arcs x anc -> x = 4 /\ anc = [3]).
  { intros x anc (_ & Hu & Hn). destruct (up_chain_snoc _ _ _ _ Hu Hn) as (p & a & -> & El & Hu').
    apply last_reg_In in El. cbn in El. repeat (destruct El as [El|El]; [try discriminate El|]); [|destruct El].
    injection El as <- <-. split; [reflexivity|]. inversion Hu' as [|y q b Hy]; [reflexivity|]. cbn in Hy. discriminate. }
  repeat split; try (repeat constructor; lia).
  - exists (SUBJ, 1, 0). cbn. auto.
  - intros x anc H. destruct (HF _ _ H) as [-> ->]. cbn. intuition lia.
  - intros p Hp. cbn in Hp. intuition discriminate.
  - exists (ART, 3, 5). cbn. auto 10.
  - intros x anc H. destruct (HF _ _ H) as [-> ->]. cbn. intuition lia.
  - intros p Hp. cbn in Hp. intuition discriminate.
Qed.

Print Assumptions C33_nodes.
Print Assumptions C33_parser_trees.
Print Assumptions C34_refuted.
Print Assumptions C34_partial.
Print Assumptions C72_words.
