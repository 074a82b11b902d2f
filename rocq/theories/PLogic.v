(** Property C75: the words of a sentence after the logic part of the pipeline. *)
From Coq Require Import Ascii String.
From Coq Require Import List NArith ZArith Arith Bool Lia Permutation Sorted.
From Verif Require Import PyBase Regex MUtils MTree MNgram MLangModel MNormal MNode MSem SUtils STree SNode LBase LText LTree LNode LNode2 LNode3 PNode2 LLogic2 PNormal.
Import ListNotations.
Local Open Scope nat_scope.

(** * C75 *)
(** [H0]: the nodes as they are made from the tokens; [H]: the nodes as they are returned. *)
Theorem C75_normalized : forall (U : udb) (P L : Type) (leL : L -> L -> bool) zero ninf tokenize m lx nouns tokens tags root h t chunk_common_nouns H R d tuples,
  length tags = length tokens -> parse_ok (length tokens) root h -> registered root h = Ok t ->
  logic_process U P L leL zero ninf tokenize m lx nouns tokens tags (Some t) chunk_common_nouns = Ok (H, R, d, tuples) ->
  exists H0 nt arcs, nodify U tokens tags (Some t) = Ok (H0, d, Some nt) /\ registered (t_root nt) arcs = Ok nt /\
  forall r, In r (map snd d) -> let n0 := H0 r in let n := H r in
    (** what does not change *)
    n_idx n = n_idx n0 /\ n_original n = n_original n0 /\ n_particles n = n_particles n0 /\ n_inf_to n = n_inf_to n0 /\
    (** the spelling first, then the lemma of that spelling for the tag of the parser *)
    standardize U P L leL zero ninf m (n_standard n0) = Ok (n_standard n) /\
    (exists suffix, lemmatize U P L leL zero ninf m lx (n_standard n) (n_tag n0) = Ok (n_lemma n, suffix) /\ (n_tag n <> ADJ -> n_suffix n = suffix)) /\
    (** then the tag, from that lemma *)
    (fixable arcs H0 r -> noun_tag (n_tag n0) -> In (n_lemma n) (lx_adjs lx) -> n_tag n = ADJ) /\
    (fixable arcs H0 r -> n_tag n0 = ADJ -> In (n_lemma n) nouns -> n_tag n = NOUN) /\
    (n_tag n <> n_tag n0 -> fixable arcs H0 r /\
       ((noun_tag (n_tag n0) /\ In (n_lemma n) (lx_adjs lx) /\ n_tag n = ADJ) \/ (n_tag n0 = ADJ /\ In (n_lemma n) nouns /\ n_tag n = NOUN))) /\
    (** then the compound, from the lemmas and the tags fixed *)
    (let head := (exists c, compounds_with arcs H (map snd d) c r) /\ (forall p, ~ compounds_with arcs H (map snd d) r p) in
     (chunk_common_nouns = true -> head -> exists members, n_chunk n = Some (join (lit " ") (map (fun x => n_lemma (H x)) members)) /\
        NoDup members /\ (forall x, In x members <-> in_compound arcs H (map snd d) x r) /\
        StronglySorted (fun a b => n_idx (H a) <= n_idx (H b)) members) /\
     (chunk_common_nouns = false \/ ~ head -> n_chunk n = None)) /\
    (** last, the canonical form, from the tag, the lemma, the particles and the compound, and the active form *)
    canonical n (n_canon n) /\
    (n_tag n = ADJ -> exists lemma, lemmatize U P L leL zero ninf m lx (n_standard n) VERB = Ok (lemma, n_suffix n) /\
       (n_suffix n = Some PAST -> n_active n = Some (join (lit " ") (lemma :: n_particles n))) /\ (n_suffix n <> Some PAST -> n_active n = None)) /\
    (n_tag n <> ADJ -> n_active n = None).
Proof.
  intros U P L leL zero ninf tokenize m lx nouns tokens tags root h t cc H R d tuples Ht HP Hr E.
  destruct (nodify_all U tokens tags root h t Ht HP Hr) as (H0 & d0 & nt & ref & EN & _ & ND & HD & _ & _ & _ & _ & (arcs & Hreg & _ & _ & Hemp)).
  unfold logic_process in E. rewrite EN in E. cbn [rbind] in E. cbv zeta in E.
  destruct (normalize_nodes U P L leL zero ninf m lx H0 (dvalues d0)) as [H1|] eqn:E1; [|discriminate]. cbn [rbind] in E.
  set (H2 := fold_left (fix_node (lx_adjs lx) nouns nt) (dvalues d0) H1) in E.
  destruct (if cc then chunk H2 nt (dvalues d0) else Ok H2) as [H3|] eqn:E3; [|discriminate]. cbn [rbind] in E.
  destruct (canonicalize_nodes U P L leL zero ninf m lx H3 (dvalues d0)) as [H4|] eqn:E4; [|discriminate]. cbn [rbind] in E.
  destruct (extract _ _ _ _) as [st|] eqn:E5; [|discriminate]. cbn [rbind] in E. injection E as -> _ -> _. clear E5 tuples R.
  exists H0, nt, arcs. split; [exact EN|]. split; [exact Hreg|]. change (dvalues d) with (map snd d) in *. set (nodes := map snd d) in *.
  assert (HF : forall r, In r nodes -> fresh (H0 r)).
  { intros r Hin. apply in_map_iff in Hin. destruct Hin as ([i r'] & Er & Hin). cbn in Er. subst r'.
    destruct (HD i r Hin) as (_ & _ & _ & _ & k & Hk & HM). destruct h as [|a h'].
    - destruct (Hemp eq_refl) as (_ & w & tg & _ & _ & Ed & EH). rewrite Ed in Hin. destruct Hin as [Ei|[]]. injection Ei as _ <-. rewrite EH. repeat split.
    - eapply made_fresh; [exact Ht|]. apply HM. discriminate. }
  set (F1 := fun n n' : node => exists st ls, standardize U P L leL zero ninf m (n_standard n) = Ok st /\
     lemmatize U P L leL zero ninf m lx st (n_tag n) = Ok ls /\ n' = set_norm n st (fst ls) (snd ls)).
  assert (HN : forall r, (In r nodes -> F1 (H0 r) (H1 r)) /\ (~ In r nodes -> H1 r = H0 r)).
  { eapply foldM_upd; [|exact ND|exact E1]. intros h0 r0 h0' Es. cbv beta in Es.
    destruct (standardize U P L leL zero ninf m (n_standard (h0 r0))) as [s0|] eqn:Ea; [|discriminate Es]; cbn [rbind] in Es.
    destruct (lemmatize U P L leL zero ninf m lx s0 (n_tag (h0 r0))) as [ls|] eqn:Eb; [|discriminate Es]; cbn [rbind] in Es; injection Es as <-.
    eexists; split; [exists s0, ls; split; [exact Ea|split; [exact Eb|reflexivity]]|reflexivity]. }
  assert (HC : forall r, (In r nodes -> canonicalize (lemmatize U P L leL zero ninf m lx) (H3 r) = Ok (H r)) /\ (~ In r nodes -> H r = H3 r)).
  { eapply (foldM_upd _ (fun n n' => canonicalize (lemmatize U P L leL zero ninf m lx) n = Ok n')); [|exact ND|exact E4]. intros h0 r0 h0' Es. cbv beta in Es.
    destruct (canonicalize (lemmatize U P L leL zero ninf m lx) (h0 r0)) as [n0|] eqn:Ea; [|discriminate Es]; cbn [rbind] in Es; injection Es as <-.
    exists n0; split; [first [exact Ea|reflexivity]|reflexivity]. }
  clear E4.
  assert (HX := C35_fixer (lx_adjs lx) nouns (t_root nt) arcs nt nodes H1 Hreg ND). fold H2 in HX. cbv zeta in HX.
  assert (HK : forall r, same_but_chunk (H2 r) (H3 r) /\
     let head := In r nodes /\ (exists c, compounds_with arcs H2 nodes c r) /\ (forall p, ~ compounds_with arcs H2 nodes r p) in
     (cc = true -> head -> exists members, n_chunk (H3 r) = Some (join (lit " ") (map (fun x => n_lemma (H2 x)) members)) /\
           NoDup members /\ (forall x, In x members <-> in_compound arcs H2 nodes x r) /\
           StronglySorted (fun a b => n_idx (H2 a) <= n_idx (H2 b)) members) /\
     (cc = false \/ ~ head -> H3 r = H2 r)).
  { intros r. destruct cc.
    - destruct (C36_chunks (t_root nt) arcs nt nodes H2 Hreg ND) as (H3' & E3' & HK). rewrite E3' in E3. injection E3 as ->. specialize (HK r). cbv zeta in HK.
      destruct HK as [K1 K2]. pose proof (heads_In (t_root nt) arcs H2 nodes r) as HI. cbv zeta. set (head := In r nodes /\ _) in *.
      split; [|split; [intros _ Hh; apply K1; exact Hh|intros [F|Hh]; [discriminate|apply K2; exact Hh]]].
      destruct (in_dec Nat.eq_dec r (heads (t_root nt) arcs H2 nodes)) as [I|I].
      + apply K1, HI, I.
      + rewrite K2 by (intros Hh; apply I, HI, Hh). repeat split.
    - injection E3 as <-. split; [repeat split|]. split; [discriminate|reflexivity]. }
  (* the tags and the indexes of the last two steps *)
  assert (HC' : forall x, n_idx (H x) = n_idx (H3 x) /\ n_tag (H x) = n_tag (H3 x) /\ n_lemma (H x) = n_lemma (H3 x)).
  { intros x. destruct (HC x) as [C1 C2]. destruct (in_dec Nat.eq_dec x nodes) as [I|I].
    - specialize (C1 I). apply canonicalize_fields in C1. destruct C1 as (A & _ & B & _ & _ & _ & D & _). auto.
    - rewrite C2 by exact I. auto. }
  assert (Ei : forall x, n_idx (H x) = n_idx (H2 x)) by (intros x; destruct (HC' x) as (-> & _); destruct (HK x) as [(A & _) _]; exact A).
  assert (Et : forall x, n_tag (H x) = n_tag (H2 x)) by (intros x; destruct (HC' x) as (_ & -> & _); destruct (HK x) as [(_ & _ & A & _) _]; exact A).
  assert (El : forall x, n_lemma (H x) = n_lemma (H2 x)) by (intros x; destruct (HC' x) as (_ & _ & ->); destruct (HK x) as [(_ & _ & _ & _ & _ & _ & A & _) _]; exact A).
  assert (E01 : forall x, n_tag (H1 x) = n_tag (H0 x)).
  { intros x. destruct (HN x) as [N1 N2]. destruct (in_dec Nat.eq_dec x nodes) as [I|I]; [|rewrite N2 by exact I; reflexivity]. destruct (N1 I) as (s0 & ls & _ & _ & ->). reflexivity. }
  intros r Hin n0 n. destruct (HF r Hin) as (F1' & F2 & F3). destruct (proj1 (HN r) Hin) as (sd & [lm sf] & N1 & N2 & N3). cbn [fst snd] in N3.
  destruct (HX r) as (_ & (X1 & X2 & X3 & X4 & X5 & X6 & X7 & X8 & X9 & X10) & X11 & X12 & X13).
  destruct (HK r) as [(K1 & K2 & K3 & K4 & K5 & K6 & K7 & K8 & K9 & K10) [K11 K12]].
  pose proof (proj1 (HC r) Hin) as C. pose proof (canonicalize_fields _ _ _ C) as (C1 & C2 & C3 & C4 & C5 & C6 & C7 & C8). cbv beta in C.
  fold n in C, C1, C2, C3, C4, C5, C6, C7, C8. pose proof (canonicalize_canonical _ _ _ C) as Cc.
  assert (L1 : n_lemma n = lm) by (rewrite C7, K7, X6, N3; reflexivity).
  assert (L2 : n_standard n = sd) by (rewrite C6, K6, X5, N3; reflexivity).
  assert (LA : n_lemma (H1 r) = n_lemma n) by (rewrite L1, N3; reflexivity).
  assert (T3 : n_tag n = n_tag (H2 r)) by (rewrite C3, K3; reflexivity).
  split; [rewrite C1, K1, X1, N3; reflexivity|]. split; [rewrite C2, K2, X2, N3; reflexivity|]. split; [rewrite C4, K4, X3, N3; reflexivity|].
  split; [rewrite C5, K5, X4, N3; reflexivity|]. split; [rewrite L2; exact N1|].
  destruct (C42_active _ _ _ C) as [A1 A2]. rewrite <- C3 in A1, A2.
  assert (Act : n_active (H3 r) = None) by (rewrite K10, X10, N3; exact F3).
  assert (Suf : n_suffix (H3 r) = sf) by (rewrite K8, X7, N3; reflexivity).
  split. { exists sf. rewrite L2, L1. split; [exact N2|]. intros Ha. rewrite (proj2 (A1 Ha)). exact Suf. }
  rewrite LA, E01 in X11, X12, X13. rewrite <- T3 in X11, X12, X13.
  assert (FX : fixable arcs H0 r -> fixable arcs H1 r) by (apply fixable_ext; exact E01).
  assert (FX' : fixable arcs H1 r -> fixable arcs H0 r) by (apply fixable_ext; intros; symmetry; apply E01).
  split; [auto|]. split; [auto|]. split. { intros Hne. destruct (X13 Hne) as (_ & Hf & Hcase). auto. }
  assert (S1 : forall c p, compounds_with arcs H nodes c p <-> compounds_with arcs H2 nodes c p).
  { intros c p. split; apply compounds_ext; intros; rewrite ?Et, ?Ei; reflexivity. }
  assert (S2 : forall x, in_compound arcs H nodes x r <-> in_compound arcs H2 nodes x r).
  { intros c. split; apply in_compound_ext; intros; rewrite ?Et, ?Ei; reflexivity. }
  split.
  { split.
    - intros Ecc [Hh1 Hh2]. destruct (K11 Ecc) as (ms & M1 & M2 & M3 & M4).
      { split; [exact Hin|]. split; [destruct Hh1 as [c Hh1]; exists c; apply S1; exact Hh1|intros p Hp; apply (Hh2 p), S1, Hp]. }
      exists ms. split; [rewrite C8, M1; f_equal; f_equal; apply map_ext; intros; symmetry; apply El|]. split; [exact M2|]. split; [intros x; rewrite S2; apply M3|].
      clear - M4 Ei. induction M4 as [|a l M4 IH HF]; constructor; [exact IH|]. rewrite Forall_forall in *. intros b Hb. rewrite !Ei. apply HF. exact Hb.
    - intros Hc. assert (E32 : H3 r = H2 r).
      { apply K12. destruct Hc as [Hc|Hc]; [left; exact Hc|right]. intros (_ & [c Hh1] & Hh2). apply Hc. split; [exists c; apply S1; exact Hh1|intros p Hp; apply (Hh2 p), S1, Hp]. }
      rewrite C8, E32, X8, N3. exact F2. }
  split; [eapply canonical_ext; [exact C3|exact C7|exact C4|exact C8|exact Cc]|]. split.
  - intros Ha. destruct (A2 Ha Act) as (lemma & suffix & B1 & B2 & B3 & B4). exists lemma. rewrite C6, C4, B2. split; [exact B1|]. split; [exact B3|exact B4].
  - intros Ha. rewrite (proj1 (A1 Ha)). exact Act.
Qed.
(** "Colour cats make": the compound has the lemmas of the standard spellings. *)
Definition c75_arcs : list arc := [(SUBJ, 2, 1); (CPL, 1, 0)].
Example C75_witness : exists t H R d tuples, parse_ok 3 2 c75_arcs /\ registered 2 c75_arcs = Ok t /\
  logic_process ascii_udb Z (option Z) w_leL 0%Z None (fun _ => Ok []) w_lm w_lx [] [lit "Colour"; lit "cats"; lit "make"] [NOUN; NOUN; VERB] (Some t) true = Ok (H, R, d, tuples) /\
  map (fun '(i, r) => (i, n_standard (H r), n_lemma (H r), n_canon (H r))) d =
    [(0, lit "color", lit "color", lit "color"); (1, lit "cats", lit "cat", lit "color cat"); (2, lit "make", lit "make", lit "make")].
Proof.
  do 5 eexists. split; [|split; [reflexivity|split; [vm_compute; reflexivity|vm_compute; reflexivity]]].
  split; [|split; [|split; [lia|split]]].
  - intros a [<-|[<-|[]]]; cbn; lia.
  - assert (D : forall x y, path c75_arcs x y -> y < x).
    { intros x y Hp. induction Hp as [l a b [E|[E|[]]]|l a b c [E|[E|[]]] _ IH]; injection E as _ <- <-; lia. }
    intros a Ha. apply D in Ha. lia.
  - cbn. lia.
  - intros _. left. reflexivity.
Qed.

Print Assumptions C75_normalized.
