(** The extraction of tuples from trees whose arcs were registered in two orders. *)
From Coq Require Import Ascii String.
From Coq Require Import List NArith ZArith Arith Bool Lia Permutation Sorted.
From Verif Require Import PyBase Regex MUtils MTree MNormal MNode MNgram MLangModel MSem SUtils STree SNode SArgs SSem LBase LText LTree LNode LNode2 LNode3 LSem LOrder LOrder2.
Import ListNotations.
Local Open Scope nat_scope.

Section Nodes.
  Variables (rt : nat) (h h' : list arc).
  Hypothesis HS : same_set h h'.
  Hypothesis HO : one_parent h.
  Let t := tree_of rt h.
  Let t' := tree_of rt h'.
  Lemma n_parent x : t_parent t' x = t_parent t x.
  Proof. unfold t, t'. rewrite !tree_parent. apply (last_reg_set h h' HS HO). Qed.
  Lemma n_nil x : t_children_of t x = [] <-> t_children_of t' x = [].
  Proof. unfold t, t'. rewrite !children_nil. split; intros H l c Hin; apply (H l c); apply HS; exact Hin. Qed.
  Lemma n_set x ls : has_child_via_set t' x ls = has_child_via_set t x ls.
  Proof. apply bool_iff. unfold t, t'. rewrite !has_child_via_set_spec. split; intros (l & c & Hl & Hc); exists l, c; (split; [exact Hl|apply HS; exact Hc]). Qed.
  Lemma n_fix adjs nouns H r : fix_node adjs nouns t' H r = fix_node adjs nouns t H r.
  Proof.
    unfold fix_node. rewrite n_parent. pose proof (n_nil r) as N.
    destruct (t_children_of t r), (t_children_of t' r); try discriminate (proj1 N eq_refl); try discriminate (proj2 N eq_refl); reflexivity.
  Qed.
  Lemma n_fix_all adjs nouns nodes : forall H, fold_left (fix_node adjs nouns t') nodes H = fold_left (fix_node adjs nouns t) nodes H.
  Proof. induction nodes as [|r nodes IH]; intros H; cbn [fold_left]; [reflexivity|]. rewrite n_fix. apply IH. Qed.
  Lemma n_compounds H nodes : compounds H t' nodes = compounds H t nodes.
  Proof.
    unfold compounds. generalize (filter (fun n => tag_in (n_tag (H n)) NOUN_TAGS) nodes) as ns. generalize (@nil (nat * list nat), @nil nat) as s.
    intros s ns. revert s. induction ns as [|x ns IH]; intros s; cbn [fold_left]; [reflexivity|].
    assert (E : compound_step H t' s x = compound_step H t s x) by (unfold compound_step; rewrite n_parent, n_set; reflexivity).
    rewrite E. apply IH.
  Qed.
  Lemma n_chunk H nodes : chunk H t' nodes = chunk H t nodes.
  Proof. unfold chunk. rewrite n_compounds. reflexivity. Qed.
End Nodes.

Section Logic.
  Context (U : udb) (P L : Type) (leL : L -> L -> bool) (zero : P) (ninf : L) (tokenize : option str -> res (list str)) (m : lm P L).
  Context (lx : lexicon) (nouns : list str) (pp : str -> str).
  Hypothesis Hpp : forall l, past_participle P L leL zero ninf tokenize m (lx_lemma_pp lx) l = Ok (pp l).
  Notation logic := (logic_process U P L leL zero ninf tokenize m lx nouns).

  Theorem logic_same tokens tags root h h' t t' b H R d s :
    length tags = length tokens -> parse_ok (length tokens) root h -> Permutation h h' -> NoDup (map a_child h) -> one_kid h ->
    registered root h = Ok t -> registered root h' = Ok t' ->
    logic tokens tags (Some t) b = Ok (H, R, d, s) ->
    exists R' s', logic tokens tags (Some t') b = Ok (H, R', d, s') /\ same_rels R R' /\ same_set s s'.
  Proof.
    intros Ht HP HPm HN HK Et Et' E. apply registered_tree in Et, Et'. subst t t'.
    destruct h as [|a0 h0].
    { apply Permutation_nil in HPm. subst h'. exists R, s. split; [exact E|]. split; [|intros x; reflexivity].
      intros v. split; [reflexivity|]. repeat split; auto. }
    destruct (nodify_same root (a0 :: h0) h' HPm HN U tokens tags Ht HP ltac:(discriminate)) as (H0 & d0 & rt & hn & hn' & E1 & E2 & R1 & R2 & SS & OP & OK).
    unfold logic_process in *. rewrite E1 in E. rewrite E2. cbn [rbind] in *.
    destruct (normalize_nodes U P L leL zero ninf m lx H0 (dvalues d0)) as [H1|e]; cbn [rbind] in *; [|discriminate].
    rewrite (n_fix_all rt hn hn' SS OP). set (H2 := fold_left _ (dvalues d0) H1) in *. rewrite (n_chunk rt hn hn' SS OP).
    destruct (if b then chunk H2 (tree_of rt hn) (dvalues d0) else Ok H2) as [H3|e]; cbn [rbind] in *; [|discriminate].
    destruct (canonicalize_nodes U P L leL zero ninf m lx H3 (dvalues d0)) as [H4|e]; cbn [rbind] in *; [|discriminate].
    pose proof (find_args_same H4 rt hn _ rt hn' _ (dvalues d0) R1 R2 SS OP (OK HK)) as SR.
    set (Ra := find_args H4 (tree_of rt hn) (fun _ => new_rels) (dvalues d0)) in *.
    set (Rb := find_args H4 (tree_of rt hn') (fun _ => new_rels) (dvalues d0)) in *.
    destruct (extract_ok H4 Ra _ pp (dvalues d0) Hpp) as (sa & Ea & Ta). destruct (extract_ok H4 Rb _ pp (dvalues d0) Hpp) as (sb & Eb & Tb).
    rewrite Ea in E. rewrite Eb. cbn [rbind] in *. injection E as <- <- <- <-. exists Rb, sb. split; [reflexivity|]. split; [exact SR|].
    intros x. rewrite Ta, Tb. split; apply tuple_of_same; [exact SR|apply same_rels_sym; exact SR].
  Qed.
End Logic.
