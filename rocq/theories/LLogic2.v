(** Proofs about the logic part of the pipeline: what the steps leave in the nodes. *)
From Coq Require Import Ascii String.
From Coq Require Import List NArith ZArith Arith Bool Lia Permutation Sorted.
From Verif Require Import PyBase Regex MUtils MTree MNgram MLangModel MNormal MNode MSem SUtils STree SNode LBase LText LTree LNode LNode2 LNode3 PNode2.
Import ListNotations.
Local Open Scope nat_scope.

(** a loop that updates each node from its own attributes *)
Lemma foldM_upd (step : heap -> nat -> res heap) (F : node -> node -> Prop) :
  (forall h r h', step h r = Ok h' -> exists n, F (h r) n /\ h' = upd h r n) ->
  forall nodes h h', NoDup nodes -> foldM step h nodes = Ok h' ->
  forall r, (In r nodes -> F (h r) (h' r)) /\ (~ In r nodes -> h' r = h r).
Proof.
  intros HS. induction nodes as [|x nodes IH]; intros h h' ND E r; cbn [foldM] in E.
  - injection E as <-. split; [intros []|reflexivity].
  - destruct (step h x) as [h1|] eqn:E1; [|discriminate]. cbn [rbind] in E. inversion ND as [|? ? Hx ND']; subst. destruct (HS _ _ _ E1) as (n & Hn & ->).
    destruct (IH _ _ ND' E r) as [I1 I2]. split.
    + intros [->|Hr].
      * rewrite I2 by exact Hx. unfold upd. rewrite Nat.eqb_refl. exact Hn.
      * assert (r <> x) by (intros ->; contradiction). specialize (I1 Hr). unfold upd in I1 at 1. replace (r =? x) with false in I1 by (symmetry; apply Nat.eqb_neq; assumption). exact I1.
    + intros Hr. rewrite I2 by (intros F'; apply Hr; right; exact F'). unfold upd. replace (r =? x) with false; [reflexivity|]. symmetry. apply Nat.eqb_neq. intros ->. apply Hr. left. reflexivity.
Qed.

Definition fresh (n : node) : Prop := n_suffix n = None /\ n_chunk n = None /\ n_active n = None.
Lemma made_fresh U tokens tags h k nd : length tags = length tokens -> made U tokens tags h k nd -> fresh nd.
Proof.
  intros HL H. destruct H as [k Hk HK|k x r HK HF|k Hk]; try (repeat split; fail).
  destruct (fold_part_fields U tokens tags h HL k) as (_ & _ & _ & _ & _ & _ & _ & F1 & F2 & _ & F3). repeat split; assumption.
Qed.
(** the fields a canonical form leaves alone *)
Lemma canonicalize_fields lemmatize n n' : canonicalize lemmatize n = Ok n' ->
  n_idx n' = n_idx n /\ n_original n' = n_original n /\ n_tag n' = n_tag n /\ n_particles n' = n_particles n /\ n_inf_to n' = n_inf_to n /\
  n_standard n' = n_standard n /\ n_lemma n' = n_lemma n /\ n_chunk n' = n_chunk n.
Proof.
  unfold canonicalize. intros E. destruct (n_tag n) eqn:Et.
  all: try (destruct (dget str_eqb (n_lemma n) object_to_subject)).
  all: try (destruct (n_chunk n) as [[|c ch]|] eqn:Ec).
  all: try (destruct (lemmatize (n_standard n) VERB) as [[lemma sf]|e]; [|discriminate]; cbn [rbind fst snd] in E).
  all: injection E as <-; cbn; rewrite ?Et, ?Ec; repeat split.
Qed.
Lemma canonical_ext n n' s : n_tag n' = n_tag n -> n_lemma n' = n_lemma n -> n_particles n' = n_particles n -> n_chunk n' = n_chunk n -> canonical n s -> canonical n' s.
Proof.
  intros E1 E2 E3 E4 H. inversion H; subst.
  - apply can_pron; congruence.
  - apply can_chunk; congruence.
  - rewrite <- E2, <- E3. apply can_particles. rewrite E1. assumption.
  - rewrite <- E2. apply can_lemma; rewrite ?E1, ?E2, ?E4; assumption.
Qed.
(** relations between words read only tags and indexes *)
Lemma fixable_ext h H H' r : (forall x, n_tag (H' x) = n_tag (H x)) -> fixable h H r -> fixable h H' r.
Proof. intros E (A & d & p & B & C). split; [exact A|]. exists d, p. split; [exact B|]. rewrite E. exact C. Qed.
Lemma compounds_ext h H H' nodes c p : (forall x, n_tag (H' x) = n_tag (H x)) -> (forall x, n_idx (H' x) = n_idx (H x)) ->
  compounds_with h H nodes c p -> compounds_with h H' nodes c p.
Proof. intros E1 E2 (A & B & C & D & F & G). unfold compounds_with. rewrite !E1, !E2. auto 10. Qed.
Lemma in_compound_ext h H H' nodes x r : (forall x, n_tag (H' x) = n_tag (H x)) -> (forall x, n_idx (H' x) = n_idx (H x)) ->
  in_compound h H nodes x r -> in_compound h H' nodes x r.
Proof. intros E1 E2 I. induction I; [constructor|]. econstructor; [eapply compounds_ext; eauto|assumption]. Qed.
