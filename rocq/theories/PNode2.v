(** Properties C35, C36, C42: fixed tags, chunks and canonical forms. *)
From Coq Require Import Ascii String.
From Coq Require Import List NArith ZArith Arith Bool Lia Permutation Sorted.
From Verif Require Import PyBase Regex MUtils MTree MNormal MNode SUtils STree SNode LBase LText LTree LUdb LNode LNode2 LNode3.
Import ListNotations.
Local Open Scope nat_scope.

(** * C35. [nodes] are visited in the order of the list, each once. *)
Theorem C35_fixer : forall adjs nouns root h t nodes H, registered root h = Ok t -> NoDup nodes ->
  forall r, let n := H r in let n' := fold_left (fix_node adjs nouns t) nodes H r in
    (~ In r nodes -> n' = n) /\
    same_but_tag n n' /\
    (In r nodes -> fixable h H r -> noun_tag (n_tag n) -> In (n_lemma n) adjs -> n_tag n' = ADJ) /\
    (In r nodes -> fixable h H r -> n_tag n = ADJ -> In (n_lemma n) nouns -> n_tag n' = NOUN) /\
    (n_tag n' <> n_tag n -> In r nodes /\ fixable h H r /\
       ((noun_tag (n_tag n) /\ In (n_lemma n) adjs /\ n_tag n' = ADJ) \/ (n_tag n = ADJ /\ In (n_lemma n) nouns /\ n_tag n' = NOUN))).
Proof.
  intros adjs nouns root h t nodes H Ht ND r n n'. apply registered_tree in Ht. subst t. unfold n'. rewrite (fix_all adjs nouns root h nodes ND). fold n.
  assert (HI : existsb (Nat.eqb r) nodes = true <-> In r nodes).
  { rewrite existsb_exists. split; [intros (y & Hy & E); apply Nat.eqb_eq in E; subst; exact Hy|]. intros Hr. exists r. split; [exact Hr|apply Nat.eqb_refl]. }
  destruct (existsb (Nat.eqb r) nodes).
  2: { split; [reflexivity|]. split; [repeat split|]. split; [intros F; apply HI in F; discriminate|]. split; [intros F; apply HI in F; discriminate|]. intros F. exfalso. apply F. reflexivity. }
  split. { intros F. exfalso. apply F, HI. reflexivity. }
  unfold fixed. fold n. pose proof (fix_cond_iff root h H r) as HC. destruct (fix_cond root h H r).
  2: { split; [repeat split|]. split; [intros _ F; apply HC in F; discriminate|]. split; [intros _ F; apply HC in F; discriminate|]. intros F. exfalso. apply F. reflexivity. }
  pose proof (noun_tag_iff (n_tag n)) as HT.
  destruct (str_in (n_lemma n) adjs && tag_in (n_tag n) NOUN_TAGS) eqn:E1.
  - apply andb_true_iff in E1. destruct E1 as [E1 E2]. apply str_in_In in E1. apply HT in E2. split; [repeat split|]. split; [reflexivity|]. split.
    + intros _ _ E. rewrite E in E2. cbn in E2. intuition discriminate.
    + intros _. split; [apply HI; reflexivity|]. split; [apply HC; reflexivity|]. left. auto.
  - destruct (str_in (n_lemma n) nouns && tag_eqb (n_tag n) ADJ) eqn:E2.
    + apply andb_true_iff in E2. destruct E2 as [E2 E3]. apply str_in_In in E2. apply tag_eqb_ok in E3. split; [repeat split|]. split.
      * intros _ _ Hn. rewrite E3 in Hn. cbn in Hn. intuition discriminate.
      * split; [reflexivity|]. intros _. split; [apply HI; reflexivity|]. split; [apply HC; reflexivity|]. right. auto.
    + split; [repeat split|]. split; [|split].
      * intros _ _ Hn Hl. apply str_in_In in Hl. apply HT in Hn. rewrite Hl, Hn in E1. discriminate.
      * intros _ _ Hn Hl. apply str_in_In in Hl. apply tag_eqb_ok in Hn. rewrite Hl, Hn in E2. discriminate.
      * intros F. exfalso. apply F. reflexivity.
Qed.
Theorem C35_any_order : forall adjs nouns root h t nodes nodes' H, registered root h = Ok t -> NoDup nodes -> Permutation nodes nodes' ->
  forall r, fold_left (fix_node adjs nouns t) nodes H r = fold_left (fix_node adjs nouns t) nodes' H r.
Proof.
  intros adjs nouns root h t nodes nodes' H Ht ND HP r. apply registered_tree in Ht. subst t.
  rewrite (fix_all adjs nouns root h nodes ND), (fix_all adjs nouns root h nodes' (Permutation_NoDup HP ND)).
  assert (existsb (Nat.eqb r) nodes = existsb (Nat.eqb r) nodes') as ->; [|reflexivity].
  apply eq_true_iff_eq. rewrite !existsb_exists. split; intros (y & Hy & E); exists y; (split; [|exact E]); [eapply Permutation_in|eapply Permutation_in; [apply Permutation_sym|]]; eassumption.
Qed.
(** "the good dogs": [good], wrongly tagged as a noun, becomes an adjective; [dogs] is not a leaf. *)
Definition w_heap (l : list (string * tag)) : heap := fun r => match nth_error l r with Some (s, t) => new_node ascii_udb r (lit s) t | None => new_node ascii_udb r [] PUNCT end.
Example C35_witness :
  let H := w_heap [("good", NOUN); ("dogs", NOUN)]%string in let h := [(CPL, 1, 0)] in
  exists t, registered 1 h = Ok t /\ fixable h H 0 /\ map (fun r => n_tag (fold_left (fix_node [lit "good"; lit "dogs"] [] t) [0; 1] H r)) [0; 1] = [ADJ; NOUN].
Proof.
  eexists. split; [reflexivity|]. split.
  - split; [intros l c [E|[]]; discriminate|]. exists CPL, 1. split; [reflexivity|]. left. split; [reflexivity|]. vm_compute. auto.
  - vm_compute. reflexivity.
Qed.

(** * C36 *)
Theorem C36_chunks : forall root h t nodes H, registered root h = Ok t -> NoDup nodes ->
  exists H', chunk H t nodes = Ok H' /\
    forall r,
      let head := In r nodes /\ (exists c, compounds_with h H nodes c r) /\ (forall p, ~ compounds_with h H nodes r p) in
      (head -> same_but_chunk (H r) (H' r) /\
         exists members, n_chunk (H' r) = Some (join (lit " ") (map (fun x => n_lemma (H x)) members)) /\
           NoDup members /\ (forall x, In x members <-> in_compound h H nodes x r) /\
           StronglySorted (fun a b => n_idx (H a) <= n_idx (H b)) members) /\
      (~ head -> H' r = H r).
Proof.
  intros root h t nodes H Ht ND. apply registered_tree in Ht. subst t. destruct (chunk_ok root h H nodes ND) as (H' & E & Ho & Hi).
  exists H'. split; [exact E|]. intros r head. split.
  - intros Hh. apply (heads_In root) in Hh. destruct (Hi r Hh) as (c & Ec & Er). rewrite Er. split; [repeat split|].
    destruct (the_chunk_ok root h H nodes ND r) as (l & El & H1 & H2 & H3). exists l. rewrite El in Ec. injection Ec as <-. auto.
  - intros Hh. apply Ho. intros F. apply Hh. apply (heads_In root) in F. exact F.
Qed.
(** "space shuttle program": the chunk of [program] has the three nouns, in sentence order. *)
Example C36_witness :
  let H := w_heap [("space", NOUN); ("shuttle", NOUN); ("program", NOUN)]%string in let h := [(CPL, 2, 1); (CPL, 1, 0)] in
  exists t H', registered 2 h = Ok t /\ chunk H t [2; 1; 0] = Ok H' /\
    map (fun r => n_chunk (H' r)) [0; 1; 2] = [None; None; Some (lit "space shuttle program")] /\
    compounds_with h H [2; 1; 0] 1 2 /\ in_compound h H [2; 1; 0] 0 2 /\ (forall p, ~ compounds_with h H [2; 1; 0] 2 p).
Proof.
  cbv zeta. set (H := w_heap _).
  assert (C : forall c p, In (c, p) [(1, 2); (0, 1)] -> compounds_with [(CPL, 2, 1); (CPL, 1, 0)] H [2; 1; 0] c p).
  { intros c p [E|[E|[]]]; injection E as <- <-; (split; [cbn; auto|]); (split; [vm_compute; auto|]); (split; [vm_compute; auto|]); (split; [reflexivity|]);
      (split; [vm_compute; lia|]); intros l x Hl [E|[E|[]]]; injection E as <- _; cbn in Hl; intuition discriminate. }
  do 2 eexists. split; [reflexivity|]. split; [vm_compute; reflexivity|]. split; [vm_compute; reflexivity|].
  split; [apply C; cbn; auto|]. split.
  - econstructor; [apply C; right; left; reflexivity|]. econstructor; [apply C; left; reflexivity|]. constructor.
  - intros p (_ & _ & _ & E & _). discriminate E.
Qed.

(** * C42 *)
(** [canonical] is in SNode.v: it gives each node one canonical form. *)
Theorem C42_canonical : forall lemmatize n n', canonicalize lemmatize n = Ok n' ->
  canonical n (n_canon n') /\ (forall s, canonical n s -> s = n_canon n').
Proof.
  intros lemmatize n n' E. apply canonicalize_canonical in E. split; [exact E|]. intros s Hs. exact (canonical_fun n _ _ Hs E).
Qed.
Theorem C42_active : forall lemmatize n n', canonicalize lemmatize n = Ok n' ->
  (n_tag n <> ADJ -> n_active n' = n_active n /\ n_suffix n' = n_suffix n) /\
  (n_tag n = ADJ -> n_active n = None -> exists lemma suffix, lemmatize (n_standard n) VERB = Ok (lemma, suffix) /\ n_suffix n' = suffix /\
     (suffix = Some PAST -> n_active n' = Some (join (lit " ") (lemma :: n_particles n))) /\
     (suffix <> Some PAST -> n_active n' = None)).
Proof.
  intros lemmatize n n' E. unfold canonicalize in E. split.
  - intros Ht. destruct (n_tag n) eqn:Et; try congruence.
    all: try (destruct (dget str_eqb (n_lemma n) object_to_subject)).
    all: try (destruct (n_chunk n) as [[|c ch]|]).
    all: injection E as <-; split; reflexivity.
  - intros Ht Ha. rewrite Ht in E. destruct (lemmatize (n_standard n) VERB) as [[lemma sf]|e]; [|discriminate]. cbn [rbind fst snd] in E. injection E as <-.
    exists lemma, sf. split; [reflexivity|]. split; [reflexivity|]. unfold set_canon. cbn [n_active]. rewrite particle_compound_eq, Ha.
    destruct sf as [[]|]; split; intros; congruence.
Qed.
Theorem C42_no_raise : forall lemmatize n, (n_tag n = ADJ -> exists ls, lemmatize (n_standard n) VERB = Ok ls) -> exists n', canonicalize lemmatize n = Ok n'.
Proof. exact canonicalize_ok. Qed.
(** "broken down": the adjective has the active verb "break down". *)
Example C42_witness :
  let lemmatize := fun (s : str) (t : tag) => Ok (lit "break", Some PAST) in
  let n := set_particles (new_node ascii_udb 3 (lit "broken") ADJ) [lit "down"] false in
  exists n', canonicalize lemmatize n = Ok n' /\ n_canon n' = lit "broken down" /\ n_active n' = Some (lit "break down") /\ canonical n (lit "broken down").
Proof. eexists. split; [reflexivity|]. split; [reflexivity|]. split; [reflexivity|]. apply can_particles. right. reflexivity. Qed.

Print Assumptions C35_fixer.
Print Assumptions C35_any_order.
Print Assumptions C36_chunks.
Print Assumptions C42_canonical.
Print Assumptions C42_active.
Print Assumptions C42_no_raise.
