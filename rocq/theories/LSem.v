(** Proofs about semantics: the tuples extracted are those of SSem. *)
From Coq Require Import Ascii String.
From Coq Require Import List NArith ZArith Arith Bool Lia.
From Verif Require Import PyBase Regex MUtils MTree MNormal MNode MSem SUtils STree SNode SSem LBase LText LTree LUtils LNode LNode3.
Import ListNotations.
Local Open Scope nat_scope.

(** [gives r P]: no exception, and the items are those of [P] *)
Definition gives {B} (r : res (list B)) (P : B -> Prop) : Prop := exists l, r = Ok l /\ forall y, In y l <-> P y.
Lemma gives_gather {A B} (f : A -> res (list B)) l (P : A -> B -> Prop) : (forall x, In x l -> gives (f x) (P x)) ->
  gives (gather f l) (fun y => exists x, In x l /\ P x y).
Proof.
  intros Hf. unfold gather. induction l as [|x l IH].
  - exists []. split; [reflexivity|]. intros y. split; [intros []|intros (x & [] & _)].
  - destruct (Hf x (or_introl eq_refl)) as (a & Ea & Ha). destruct IH as (b & Eb & Hb); [intros z Hz; apply Hf; right; exact Hz|].
    cbn [mapM]. rewrite Ea. cbn [rbind]. destruct (mapM f l) as [ls|e]; [|discriminate]. cbn [rbind] in *. injection Eb as <-.
    exists (concat (a :: ls)). split; [reflexivity|]. intros y. cbn [concat]. rewrite in_app_iff, Ha, Hb. split.
    + intros [Hy|(z & Hz & Hy)]; [exists x; split; [left; reflexivity|exact Hy]|exists z; split; [right; exact Hz|exact Hy]].
    + intros (z & [<-|Hz] & Hy); [left; exact Hy|right; exists z; auto].
Qed.
Lemma gives_nil {B} : gives (Ok (@nil B)) (fun _ => False).
Proof. exists []. split; [reflexivity|]. intros y. split; intros []. Qed.
Lemma gives_one {B} (x : B) : gives (Ok [x]) (fun y => y = x).
Proof. exists [x]. split; [reflexivity|]. intros y. split; [intros [<-|[]]; reflexivity|intros ->; left; reflexivity]. Qed.
Lemma gives_app {B} (a b : res (list B)) P Q : gives a P -> gives b Q -> gives (let! x := a in let! y := b in Ok (x ++ y)) (fun y => P y \/ Q y).
Proof.
  intros (x & -> & Hx) (z & -> & Hz). exists (x ++ z). split; [reflexivity|]. intros y. rewrite in_app_iff, Hx, Hz. reflexivity.
Qed.
Lemma gives_cons {B} (x : B) (a : res (list B)) P : gives a P -> gives (let! l := a in Ok (x :: l)) (fun y => y = x \/ P y).
Proof. intros (l & -> & Hl). exists (x :: l). split; [reflexivity|]. intros y. cbn. rewrite Hl. split; intros [E|E]; auto. Qed.
Lemma gives_iff {B} (a : res (list B)) P Q : (forall y, P y <-> Q y) -> gives a P -> gives a Q.
Proof. intros E (l & -> & Hl). exists l. split; [reflexivity|]. intros y. rewrite Hl. apply E. Qed.

Section Extract.
  Variables (H : heap) (R : relheap) (past_participle : str -> res str) (pp : str -> str) (nodes : list nat).
  Hypothesis Hpp : forall l, past_participle l = Ok (pp l).
  Notation narg := (narg H). Notation wd := (wd H).
  Lemma noun_arg_ok r : noun_argument H r = Ok (narg r).
  Proof. unfold noun_argument, noun_arg_code, narg, ncode, arg, wd, canon. destruct (n_tag (H r)); reflexivity. Qed.
  Lemma new_arg_ok w c b : new_argument w (value c) b = Ok {| a_word := w; a_code := value c; a_aff := b |}.
  Proof. destruct c; reflexivity. Qed.
  Lemma prop_arg_ok r : new_argument (canon H r) (prop_arg_code H r) true = Ok (arg (wd r) (pcode H r) true).
  Proof.
    unfold prop_arg_code, pcode, adj_arg_code, acode, noun_arg_code, ncode, truthy, arg, SSem.wd, canon.
    destruct (n_tag (H r)); try reflexivity. destruct (n_active (H r)) as [[|]|]; reflexivity.
  Qed.
  Lemma adj_arg_ok r : new_argument (canon H r) (adj_arg_code H r) true = Ok (arg (wd r) (acode H r) true).
  Proof. unfold adj_arg_code, acode, truthy, arg, SSem.wd, canon. destruct (n_active (H r)) as [[|]|]; reflexivity. Qed.
  Lemma parity l : 2 <= length l -> xnor (map (aff R) l) = Ok (even_neg R l).
  Proof.
    intros Hl. rewrite xnor_spec, map_length. replace (length l <? 2) with false by (symmetry; apply Nat.ltb_ge; exact Hl). f_equal. unfold even_neg. f_equal.
    unfold count_false. clear. induction l as [|x l IH]; [reflexivity|]. cbn [map filter]. unfold negative at 1, aff at 1. destruct (r_aff (R x)); cbn [negb length]; rewrite IH; reflexivity.
  Qed.
  Lemma is_noun_iff r : is_noun H r = true <-> nounish H r.
  Proof. apply noun_tag_iff. Qed.
  Lemma is_prop_iff r : is_prop H r = true <-> attribute H r.
  Proof.
    unfold is_prop, PROP_TAGS, attribute, nounish. rewrite tag_in_In, in_app_iff, <- noun_tag_iff, tag_in_In. cbn [In]. intuition congruence.
  Qed.
  Lemma verb_iff r : tag_eqb (n_tag (H r)) VERB = true <-> verbal H r.
  Proof. apply tag_eqb_ok. Qed.
  Lemma linking_iff r : cannot_be_transitive R r = true <-> linking R r.
  Proof.
    unfold cannot_be_transitive, linking. rewrite !orb_true_iff.
    assert (E : forall l : list nat, nonempty l = true <-> l <> []) by (intros [|x l]; cbn; split; congruence). rewrite !E. tauto.
  Qed.
  Lemma not_linking_iff r : cannot_be_transitive R r = false <-> ~ linking R r.
  Proof. rewrite <- not_true_iff_false, linking_iff. reflexivity. Qed.
  Lemma main_iff r : In r nodes -> (main_verb H R r = true <-> main H R nodes r).
  Proof.
    intros Hr. unfold main_verb, main. rewrite andb_true_iff, verb_iff, negb_true_iff, orb_false_iff, not_linking_iff. tauto.
  Qed.
  Lemma intransitive_iff r : negb (nonempty (rel R A_objs r)) && negb (str_in (canon H r) not_intransitive) = true <-> intransitive H R r.
  Proof.
    unfold intransitive, rel, canon, SSem.wd. rewrite andb_true_iff, !negb_true_iff, <- (not_true_iff_false (str_in _ _)), str_in_In.
    destruct (r_list (R r) A_objs); cbn; split; intros [E F]; split; auto; discriminate.
  Qed.
  Lemma subjs_In v s : In s (filter (is_noun H) (rel R A_subjs v)) <-> subj_noun H R v s.
  Proof. rewrite filter_In, is_noun_iff. reflexivity. Qed.
  Lemma objs_In v s : In s (filter (is_noun H) (rel R A_objs v)) <-> obj_noun H R v s.
  Proof. rewrite filter_In, is_noun_iff. reflexivity. Qed.
  Lemma obj_verbs_In v o : In o (filter (fun o => tag_eqb (n_tag (H o)) VERB) (rel R A_objs v)) <-> obj_verb H R v o.
  Proof. rewrite filter_In, verb_iff. reflexivity. Qed.
  Lemma participle_ok v : participle H past_participle v = Ok (pp_words H pp v).
  Proof. unfold participle, pp_words. rewrite Hpp. cbn [rbind]. destruct (n_particles (H v)); reflexivity. Qed.

  Lemma clause_ok v s o : is_noun H s = true -> gives (clause_stuples H R v s (narg s) o) (fun y => exists s2, clause_subj H R s o s2 /\
      ((~ linking R o /\ intransitive H R o /\ y = [narg s; arg (wd v) "T" (even_neg R [s; v; s2; o]); narg s2; arg (wd o) "I" true]) \/
       (~ linking R o /\ exists o2, obj_noun H R o o2 /\ y = [narg s; arg (wd v) "T" (even_neg R [s; v; s2; o; o2]); narg s2; arg (wd o) "T" true; narg o2]) \/
       (exists p, In p (r_list (R o) A_props) /\ y = [narg s; arg (wd v) "T" (even_neg R [s; v; s2; o; p]); narg s2; arg (wd o) "C" true; arg (wd p) (pcode H p) true]))).
  Proof.
    intros Hs. unfold clause_stuples. set (ss := match rel R A_subjs o with [] => [s] | x :: l => filter (is_noun H) (x :: l) end).
    assert (HS : forall s2, In s2 ss <-> clause_subj H R s o s2).
    { intros s2. unfold ss, clause_subj, subj_noun, rel. destruct (r_list (R o) A_subjs) as [|x l].
      - split; [intros [<-|[]]; auto|]. intros [[_ ->]|[[] _]]. left. reflexivity.
      - rewrite filter_In, is_noun_iff. split; [auto|]. intros [[F _]|F]; [discriminate|exact F]. }
    eapply gives_iff; [|apply gives_gather with (P := fun s2 y =>
       (~ linking R o /\ intransitive H R o /\ y = [narg s; arg (wd v) "T" (even_neg R [s; v; s2; o]); narg s2; arg (wd o) "I" true]) \/
       (~ linking R o /\ exists o2, obj_noun H R o o2 /\ y = [narg s; arg (wd v) "T" (even_neg R [s; v; s2; o; o2]); narg s2; arg (wd o) "T" true; narg o2]) \/
       (exists p, In p (r_list (R o) A_props) /\ y = [narg s; arg (wd v) "T" (even_neg R [s; v; s2; o; p]); narg s2; arg (wd o) "C" true; arg (wd p) (pcode H p) true]))].
    - intros y. split; intros (s2 & A & B); exists s2; (split; [apply HS; exact A|exact B]).
    - intros s2 _. rewrite noun_arg_ok. cbn [rbind]. eapply gives_iff; [intros y; apply or_assoc|]. apply gives_app.
      + destruct (cannot_be_transitive R o) eqn:Ec.
        * eapply gives_iff; [|apply gives_nil]. intros y. apply linking_iff in Ec. tauto.
        * apply not_linking_iff in Ec. eapply gives_iff; [|apply gives_app].
          3: { apply gives_gather with (P := fun o2 y => y = [narg s; arg (wd v) "T" (even_neg R [s; v; s2; o; o2]); narg s2; arg (wd o) "T" true; narg o2]).
               intros o2 _. change [aff R s; aff R v; aff R s2; aff R o; aff R o2] with (map (aff R) [s; v; s2; o; o2]). rewrite parity by (cbn; lia). cbn [rbind].
               rewrite !new_arg_ok. cbn [rbind]. rewrite noun_arg_ok. cbn [rbind]. apply gives_one. }
          2: { instantiate (1 := fun y => intransitive H R o /\ y = [narg s; arg (wd v) "T" (even_neg R [s; v; s2; o]); narg s2; arg (wd o) "I" true]).
               pose proof (intransitive_iff o) as I. destruct (_ && _).
               - change [aff R s; aff R v; aff R s2; aff R o] with (map (aff R) [s; v; s2; o]). rewrite parity by (cbn; lia). cbn [rbind]. rewrite !new_arg_ok. cbn [rbind].
                 eapply gives_iff; [|apply gives_one]. intros y. split; [intros ->; split; [apply I; reflexivity|reflexivity]|intros [_ ->]; reflexivity].
               - eapply gives_iff; [|apply gives_nil]. intros y. split; [intros []|]. intros [F _]. apply I in F. discriminate. }
          cbv beta. intros y. split.
          -- intros [[A B]|(o2 & A & B)]; [left; auto|right]. split; [exact Ec|]. exists o2. split; [apply objs_In; exact A|exact B].
          -- intros [(_ & A & B)|(_ & o2 & A & B)]; [left; auto|right]. exists o2. split; [apply objs_In; exact A|exact B].
      + apply gives_gather. intros p _. change [aff R s; aff R v; aff R s2; aff R o; aff R p] with (map (aff R) [s; v; s2; o; p]). rewrite parity by (cbn; lia). cbn [rbind].
        rewrite !new_arg_ok. cbn [rbind]. rewrite prop_arg_ok. cbn [rbind]. apply gives_one.
  Qed.

  Lemma verbs_subjs_objs_ok v : gives (stuples_from_verbs_subjs_objs H R v) (fun y => exists s o s2, subj_noun H R v s /\ obj_verb H R v o /\ clause_subj H R s o s2 /\
      ((~ linking R o /\ intransitive H R o /\ y = [narg s; arg (wd v) "T" (even_neg R [s; v; s2; o]); narg s2; arg (wd o) "I" true]) \/
       (~ linking R o /\ exists o2, obj_noun H R o o2 /\ y = [narg s; arg (wd v) "T" (even_neg R [s; v; s2; o; o2]); narg s2; arg (wd o) "T" true; narg o2]) \/
       (exists p, In p (r_list (R o) A_props) /\ y = [narg s; arg (wd v) "T" (even_neg R [s; v; s2; o; p]); narg s2; arg (wd o) "C" true; arg (wd p) (pcode H p) true]))).
  Proof.
    unfold stuples_from_verbs_subjs_objs. eapply gives_iff; [|apply gives_gather; intros s Hs].
    2: { rewrite noun_arg_ok. cbn [rbind]. apply gives_gather. intros o Ho. apply clause_ok. apply filter_In in Hs. apply Hs. }
    cbv beta. intros y. split.
    - intros (s & Hs & o & Ho & s2 & Hs2 & C). exists s, o, s2. split; [apply subjs_In; exact Hs|]. split; [apply obj_verbs_In; exact Ho|]. auto.
    - intros (s & o & s2 & Hs & Ho & C). exists s. split; [apply subjs_In; exact Hs|]. exists o. split; [apply obj_verbs_In; exact Ho|]. exists s2. exact C.
  Qed.
  Lemma subjs_objs_ok v : gives (stuples_from_subjs_objs H R v) (fun y =>
      (exists s, subj_noun H R v s /\ intransitive H R v /\ y = [narg s; arg (wd v) "I" (even_neg R [s; v])]) \/
      (exists s o, subj_noun H R v s /\ obj_noun H R v o /\ y = [narg s; arg (wd v) "T" (even_neg R [s; v; o]); narg o])).
  Proof.
    unfold stuples_from_subjs_objs. apply gives_app.
    - pose proof (intransitive_iff v) as I. destruct (_ && _).
      + eapply gives_iff; [|apply gives_gather; intros s Hs].
        2: { rewrite noun_arg_ok. cbn [rbind]. change [aff R s; aff R v] with (map (aff R) [s; v]). rewrite parity by (cbn; lia). cbn [rbind]. rewrite new_arg_ok. cbn [rbind]. apply gives_one. }
        cbv beta. intros y. split.
        * intros (s & Hs & ->). exists s. split; [apply subjs_In; exact Hs|]. split; [apply I; reflexivity|reflexivity].
        * intros (s & Hs & _ & ->). exists s. split; [apply subjs_In; exact Hs|reflexivity].
      + eapply gives_iff; [|apply gives_nil]. intros y. split; [intros []|]. intros (s & _ & F & _). apply I in F. discriminate.
    - eapply gives_iff; [|apply gives_gather; intros o Ho].
      2: { rewrite noun_arg_ok. cbn [rbind]. apply gives_gather. intros s Hs. rewrite noun_arg_ok. cbn [rbind]. change [aff R s; aff R v; aff R o] with (map (aff R) [s; v; o]).
           rewrite parity by (cbn; lia). cbn [rbind]. rewrite new_arg_ok. cbn [rbind]. apply gives_one. }
      cbv beta. intros y. split.
      + intros (o & Ho & s & Hs & ->). exists s, o. split; [apply subjs_In; exact Hs|]. split; [apply objs_In; exact Ho|reflexivity].
      + intros (s & o & Hs & Ho & ->). exists o. split; [apply objs_In; exact Ho|]. exists s. split; [apply subjs_In; exact Hs|reflexivity].
  Qed.
  Lemma iobj_ok v : gives (stuples_from_iobj H R v) (fun y =>
      exists s io, subj_noun H R v s /\ In io (r_list (R v) A_iobjs) /\ nounish H io /\ y = [narg s; arg (wd v) "R" (even_neg R [s; v; io]); narg io]).
  Proof.
    unfold stuples_from_iobj. eapply gives_iff; [|apply gives_gather; intros o Ho].
    2: { rewrite noun_arg_ok. cbn [rbind]. apply gives_gather. intros s Hs. rewrite noun_arg_ok. cbn [rbind]. change [aff R s; aff R v; aff R o] with (map (aff R) [s; v; o]).
         rewrite parity by (cbn; lia). cbn [rbind]. rewrite new_arg_ok. cbn [rbind]. apply gives_one. }
    cbv beta. intros y. split.
    - intros (o & Ho & s & Hs & ->). exists s, o. split; [apply subjs_In; exact Hs|]. apply filter_In in Ho. rewrite is_noun_iff in Ho. destruct Ho. auto.
    - intros (s & o & Hs & Ho & Hn & ->). exists o. split; [apply filter_In; rewrite is_noun_iff; auto|]. exists s. split; [apply subjs_In; exact Hs|reflexivity].
  Qed.
  Lemma objs_ok v : gives (stuples_from_objs H R past_participle v) (fun y => ~ In (wd v) (map lit ["have"; "get"]%string) /\ exists o, obj_noun H R v o /\
      y = [narg o; arg (lit "be") "C" (xorb (even_neg R [v; o]) (match r_list (R v) A_subjs with [] => false | ss => forallb (negative R) ss end)); arg (pp_words H pp v) "L" true]).
  Proof.
    unfold stuples_from_objs. change (map lit ["have"; "get"]%string) with not_passive. change (wd v) with (canon H v). destruct (str_in (canon H v) not_passive) eqn:E.
    - apply str_in_In in E. eapply gives_iff; [|apply gives_nil]. intros y. tauto.
    - assert (E' : ~ In (canon H v) not_passive) by (rewrite <- str_in_In; congruence).
      eapply gives_iff; [|apply gives_gather; intros o Ho].
      2: { rewrite noun_arg_ok. cbn [rbind].
           assert (X : match rel R A_subjs v with [] => xnor [aff R v; aff R o] | n :: l => xnor [existsb (aff R) (n :: l); aff R v; aff R o] end =
             Ok (xorb (even_neg R [v; o]) (match r_list (R v) A_subjs with [] => false | ss => forallb (negative R) ss end))).
           { unfold rel. destruct (r_list (R v) A_subjs) as [|n l].
             - change [aff R v; aff R o] with (map (aff R) [v; o]). rewrite parity by (cbn; lia). rewrite xorb_false_r. reflexivity.
             - assert (N : existsb (aff R) (n :: l) = negb (forallb (negative R) (n :: l))).
               { generalize (n :: l). clear. intros l. induction l as [|x l IH]; [reflexivity|]. cbn. rewrite IH, negb_andb. unfold negative, aff. rewrite negb_involutive. reflexivity. }
               rewrite N. set (b := forallb (negative R) (n :: l)). unfold even_neg, negative, aff. cbn [filter]. destruct b, (r_aff (R v)), (r_aff (R o)); reflexivity. }
           rewrite X. cbn [rbind]. rewrite new_arg_ok. cbn [rbind]. rewrite participle_ok. cbn [rbind]. rewrite new_arg_ok. cbn [rbind]. apply gives_one. }
      cbv beta. intros y. split.
      + intros (o & Ho & ->). split; [exact E'|]. exists o. split; [apply objs_In; exact Ho|reflexivity].
      + intros (_ & o & Ho & ->). exists o. split; [apply objs_In; exact Ho|reflexivity].
  Qed.
  Lemma active_ok n p v : gives (active_stuples H R n p (narg n) v) (fun y => exists a, In a (r_list (R p) A_agents) /\ nounish H a /\
      y = [narg a; arg v "T" (even_neg R [a; p; n]); narg n]).
  Proof.
    unfold active_stuples. eapply gives_iff; [|apply gives_gather; intros a Ha].
    2: { change [aff R a; aff R p; aff R n] with (map (aff R) [a; p; n]). rewrite parity by (cbn; lia). cbn [rbind]. rewrite new_arg_ok. cbn [rbind]. rewrite noun_arg_ok. cbn [rbind]. apply gives_one. }
    cbv beta. intros y. split.
    - intros (a & Ha & ->). exists a. apply filter_In in Ha. rewrite is_noun_iff in Ha. destruct Ha. auto.
    - intros (a & Ha & Hn & ->). exists a. split; [apply filter_In; rewrite is_noun_iff; auto|reflexivity].
  Qed.
  Lemma maybe_active n p (b : bool) : gives (match n_active (H p) with Some (c :: w) => if b then active_stuples H R n p (narg n) (c :: w) else Ok [] | _ => Ok [] end)
    (fun y => b = true /\ exists v a, has_active H p v /\ In a (r_list (R p) A_agents) /\ nounish H a /\ y = [narg a; arg v "T" (even_neg R [a; p; n]); narg n]).
  Proof.
    unfold has_active. destruct (n_active (H p)) as [[|c w]|].
    - eapply gives_iff; [|apply gives_nil]. intros y. split; [intros []|]. intros (_ & v & a & (E & F) & _). injection E as <-. congruence.
    - destruct b.
      + eapply gives_iff; [|apply active_ok]. cbv beta. intros y. split.
        * intros (a & Ha & Hn & ->). split; [reflexivity|]. exists (c :: w), a. repeat split; auto. discriminate.
        * intros (_ & v & a & (E & F) & Ha & Hn & ->). injection E as <-. exists a. auto.
      + eapply gives_iff; [|apply gives_nil]. intros y. split; [intros []|]. intros (F & _). discriminate.
    - eapply gives_iff; [|apply gives_nil]. intros y. split; [intros []|]. intros (_ & v & a & (E & F) & _). discriminate.
  Qed.
  Lemma adjs_ok n : gives (stuples_from_naked_adjs H R n) (fun y => exists p, In p (r_list (R n) A_adjs) /\
      (y = [narg n; arg (lit "be") "C" (even_neg R [p; n]); arg (wd p) (acode H p) true] \/
       exists v a, has_active H p v /\ In a (r_list (R p) A_agents) /\ nounish H a /\ y = [narg a; arg v "T" (even_neg R [a; p; n]); narg n])).
  Proof.
    unfold stuples_from_naked_adjs. rewrite noun_arg_ok. cbn [rbind]. apply gives_gather. intros p _.
    change [aff R p; aff R n] with (map (aff R) [p; n]). rewrite parity by (cbn; lia). cbn [rbind]. rewrite new_arg_ok. cbn [rbind]. rewrite adj_arg_ok. cbn [rbind].
    apply gives_cons. eapply gives_iff; [|apply (maybe_active n p true)]. cbv beta. intros y. split; [intros [_ F]; exact F|intros F; auto].
  Qed.
  Lemma pp_props_ok n : gives (stuples_from_pp_props H R n) (fun y => exists x p, In (x, p) (r_pps (R n)) /\ attribute H p /\
      y = [narg n; arg (join (lit " ") [lit "be"; wd x]) "C" (even_neg R [n; x; p]); arg (wd p) (pcode H p) true]).
  Proof.
    unfold stuples_from_pp_props. rewrite noun_arg_ok. cbn [rbind].
    eapply gives_iff; [|apply gives_gather with (P := fun xp y => y = [narg n; arg (join (lit " ") [lit "be"; wd (fst xp)]) "C" (even_neg R [n; fst xp; snd xp]); arg (wd (snd xp)) (pcode H (snd xp)) true]); intros [x p] _].
    2: { change [aff R n; aff R x; aff R p] with (map (aff R) [n; x; p]). rewrite parity by (cbn; lia). cbn [rbind]. rewrite new_arg_ok. cbn [rbind]. rewrite prop_arg_ok. cbn [rbind]. apply gives_one. }
    cbv beta. intros y. split.
    - intros ([x p] & Hx & ->). apply filter_In in Hx. rewrite is_prop_iff in Hx. destruct Hx. exists x, p. auto.
    - intros (x & p & Hx & Ha & ->). exists (x, p). split; [apply filter_In; rewrite is_prop_iff; auto|reflexivity].
  Qed.
  Lemma copula_props_ok n : gives (stuples_from_copula_props H R n) (fun y => exists c p, In (c, p) (r_copulas (R n)) /\ attribute H p /\
      (y = [narg n; arg (wd c) "C" (even_neg R [n; c; p]); arg (wd p) (pcode H p) true] \/
       n_tag (H p) = ADJ /\ exists v a, has_active H p v /\ In a (r_list (R p) A_agents) /\ nounish H a /\ y = [narg a; arg v "T" (even_neg R [a; p; n]); narg n])).
  Proof.
    unfold stuples_from_copula_props. rewrite noun_arg_ok. cbn [rbind].
    eapply gives_iff; [|apply gives_gather with (P := fun cp y => let '(c, p) := cp in y = [narg n; arg (wd c) "C" (even_neg R [n; c; p]); arg (wd p) (pcode H p) true] \/
       n_tag (H p) = ADJ /\ exists v a, has_active H p v /\ In a (r_list (R p) A_agents) /\ nounish H a /\ y = [narg a; arg v "T" (even_neg R [a; p; n]); narg n]); intros [c p] _].
    2: { change [aff R n; aff R c; aff R p] with (map (aff R) [n; c; p]). rewrite parity by (cbn; lia). cbn [rbind]. rewrite new_arg_ok. cbn [rbind]. rewrite prop_arg_ok. cbn [rbind].
         apply gives_cons. pose proof (maybe_active n p (tag_eqb (n_tag (H p)) ADJ)) as M.
         assert (E : match n_tag (H p), n_active (H p) with ADJ, Some (c0 :: v) => active_stuples H R n p (narg n) (c0 :: v) | _, _ => Ok [] end =
           match n_active (H p) with Some (c0 :: w) => if tag_eqb (n_tag (H p)) ADJ then active_stuples H R n p (narg n) (c0 :: w) else Ok [] | _ => Ok [] end)
           by (destruct (n_tag (H p)), (n_active (H p)) as [[|]|]; reflexivity).
         rewrite E. eapply gives_iff; [|exact M]. cbv beta. intros y. rewrite (tag_eqb_ok (n_tag (H p)) ADJ). reflexivity. }
    cbv beta. intros y. split.
    - intros ([c p] & Hx & C). apply filter_In in Hx. rewrite is_prop_iff in Hx. destruct Hx. exists c, p. auto.
    - intros (c & p & Hx & Ha & C). exists (c, p). split; [apply filter_In; rewrite is_prop_iff; auto|exact C].
  Qed.
  Lemma iprops_ok n : gives (stuples_from_iprops H R past_participle n) (fun y => exists s v p, In (s, v, p) (r_svi (R n)) /\ attribute H p /\
      y = [narg n; arg (join (lit " ") [lit "be"; pp_words H pp v]) "C" (even_neg R (match s with Some x => [x] | None => [] end ++ [v; n; p])); arg (wd p) (pcode H p) true]).
  Proof.
    unfold stuples_from_iprops. rewrite noun_arg_ok. cbn [rbind].
    eapply gives_iff; [|apply gives_gather with (P := fun svp y => let '(s, v, p) := svp in
      y = [narg n; arg (join (lit " ") [lit "be"; pp_words H pp v]) "C" (even_neg R (match s with Some x => [x] | None => [] end ++ [v; n; p])); arg (wd p) (pcode H p) true]); intros [[s v] p] _].
    2: { assert (X : match s with None => xnor [aff R v; aff R n; aff R p] | Some x => xnor [aff R x; aff R v; aff R n; aff R p] end =
           Ok (even_neg R (match s with Some x => [x] | None => [] end ++ [v; n; p]))).
         { destruct s as [x|]; cbn [app]; rewrite <- parity by (cbn; lia); reflexivity. }
         rewrite X. cbn [rbind]. rewrite participle_ok. cbn [rbind]. rewrite new_arg_ok. cbn [rbind]. rewrite prop_arg_ok. cbn [rbind]. apply gives_one. }
    cbv beta. intros y. split.
    - intros ([[s v] p] & Hx & C). apply filter_In in Hx. rewrite is_prop_iff in Hx. destruct Hx. exists s, v, p. auto.
    - intros (s & v & p & Hx & Ha & C). exists (s, v, p). split; [apply filter_In; rewrite is_prop_iff; auto|exact C].
  Qed.
  Lemma gives_if {B} (b : bool) (a : res (list B)) P : gives a P -> gives (if b then a else Ok []) (fun y => b = true /\ P y).
  Proof.
    intros G. destruct b; [eapply gives_iff; [|exact G]; intros y; tauto|]. eapply gives_iff; [|apply gives_nil]. intros y. split; [intros []|]. intros [F _]. discriminate.
  Qed.
  Lemma gives_app3 {B} (a b c d : res (list B)) P Q T S : gives a P -> gives b Q -> gives c T -> gives d S ->
    gives (let! x := a in let! y := b in let! z := c in let! w := d in Ok (x ++ y ++ z ++ w)) (fun y => P y \/ Q y \/ T y \/ S y).
  Proof.
    intros (x & -> & Hx) (y & -> & Hy) (z & -> & Hz) (w & -> & Hw). exists (x ++ y ++ z ++ w). split; [reflexivity|]. intros u. rewrite !in_app_iff, Hx, Hy, Hz, Hw. reflexivity.
  Qed.
  Lemma noun_not_verb r : nounish H r -> verbal H r -> False.
  Proof. unfold nounish, verbal, noun_tag. intros N V. rewrite V in N. cbn in N. intuition discriminate. Qed.
  Theorem extract_ok : gives (extract H R past_participle nodes) (tuple_of H R pp nodes).
  Proof.
    unfold extract. set (blocked := flat_map (fun r => if main_verb H R r then blocked_by H R r else []) nodes).
    assert (HB : forall r, In r blocked <-> subordinate H R nodes r).
    { intros r. unfold blocked, subordinate. rewrite in_flat_map. split.
      - intros (v & Hv & Hr). pose proof (main_iff v Hv) as M. destruct (main_verb H R v); [|destruct Hr]. apply in_flat_map in Hr. destruct Hr as (s & Hs & Ho).
        exists v, s. split; [apply M; reflexivity|]. split; [apply subjs_In; exact Hs|]. apply obj_verbs_In. exact Ho.
      - intros (v & s & M & Hs & Ho). exists v. split; [apply M|]. apply (main_iff v (proj1 M)) in M. rewrite M. apply in_flat_map. exists s.
        split; [apply subjs_In; exact Hs|]. apply obj_verbs_In. exact Ho. }
    assert (G1 : gives (gather (fun r => if main_verb H R r then stuples_from_verbs_subjs_objs H R r else Ok []) nodes) _)
      by (apply gives_gather; intros r _; apply gives_if; apply verbs_subjs_objs_ok).
    assert (G2 : gives (gather (fun r => if main_verb H R r then let! a := stuples_from_subjs_objs H R r in let! b := stuples_from_iobj H R r in Ok (a ++ b)
        else if is_noun H r then let! a := stuples_from_iprops H R past_participle r in let! b := stuples_from_copula_props H R r in
          let! c := stuples_from_pp_props H R r in let! d := stuples_from_naked_adjs H R r in Ok (a ++ b ++ c ++ d) else Ok [])
        (filter (fun r => negb (existsb (Nat.eqb r) blocked)) nodes)) (fun y => exists r, In r nodes /\ ~ subordinate H R nodes r /\
          ((main H R nodes r /\ (((exists s, subj_noun H R r s /\ intransitive H R r /\ y = [narg s; arg (wd r) "I" (even_neg R [s; r])]) \/
               (exists s o, subj_noun H R r s /\ obj_noun H R r o /\ y = [narg s; arg (wd r) "T" (even_neg R [s; r; o]); narg o])) \/
               exists s io, subj_noun H R r s /\ In io (r_list (R r) A_iobjs) /\ nounish H io /\ y = [narg s; arg (wd r) "R" (even_neg R [s; r; io]); narg io])) \/
           (nounish H r /\ ((exists s v p, In (s, v, p) (r_svi (R r)) /\ attribute H p /\
                y = [narg r; arg (join (lit " ") [lit "be"; pp_words H pp v]) "C" (even_neg R (match s with Some x => [x] | None => [] end ++ [v; r; p])); arg (wd p) (pcode H p) true]) \/
              (exists c p, In (c, p) (r_copulas (R r)) /\ attribute H p /\
                (y = [narg r; arg (wd c) "C" (even_neg R [r; c; p]); arg (wd p) (pcode H p) true] \/
                 n_tag (H p) = ADJ /\ exists v a, has_active H p v /\ In a (r_list (R p) A_agents) /\ nounish H a /\ y = [narg a; arg v "T" (even_neg R [a; p; r]); narg r])) \/
              (exists x p, In (x, p) (r_pps (R r)) /\ attribute H p /\
                y = [narg r; arg (join (lit " ") [lit "be"; wd x]) "C" (even_neg R [r; x; p]); arg (wd p) (pcode H p) true]) \/
              (exists p, In p (r_list (R r) A_adjs) /\
                (y = [narg r; arg (lit "be") "C" (even_neg R [p; r]); arg (wd p) (acode H p) true] \/
                 exists v a, has_active H p v /\ In a (r_list (R p) A_agents) /\ nounish H a /\ y = [narg a; arg v "T" (even_neg R [a; p; r]); narg r]))))))).
    { eapply gives_iff; [|apply gives_gather with (P := fun r y => ((main H R nodes r /\ (((exists s, subj_noun H R r s /\ intransitive H R r /\ y = [narg s; arg (wd r) "I" (even_neg R [s; r])]) \/
               (exists s o, subj_noun H R r s /\ obj_noun H R r o /\ y = [narg s; arg (wd r) "T" (even_neg R [s; r; o]); narg o])) \/
               exists s io, subj_noun H R r s /\ In io (r_list (R r) A_iobjs) /\ nounish H io /\ y = [narg s; arg (wd r) "R" (even_neg R [s; r; io]); narg io])) \/
           (nounish H r /\ ((exists s v p, In (s, v, p) (r_svi (R r)) /\ attribute H p /\
                y = [narg r; arg (join (lit " ") [lit "be"; pp_words H pp v]) "C" (even_neg R (match s with Some x => [x] | None => [] end ++ [v; r; p])); arg (wd p) (pcode H p) true]) \/
              (exists c p, In (c, p) (r_copulas (R r)) /\ attribute H p /\
                (y = [narg r; arg (wd c) "C" (even_neg R [r; c; p]); arg (wd p) (pcode H p) true] \/
                 n_tag (H p) = ADJ /\ exists v a, has_active H p v /\ In a (r_list (R p) A_agents) /\ nounish H a /\ y = [narg a; arg v "T" (even_neg R [a; p; r]); narg r])) \/
              (exists x p, In (x, p) (r_pps (R r)) /\ attribute H p /\
                y = [narg r; arg (join (lit " ") [lit "be"; wd x]) "C" (even_neg R [r; x; p]); arg (wd p) (pcode H p) true]) \/
              (exists p, In p (r_list (R r) A_adjs) /\
                (y = [narg r; arg (lit "be") "C" (even_neg R [p; r]); arg (wd p) (acode H p) true] \/
                 exists v a, has_active H p v /\ In a (r_list (R p) A_agents) /\ nounish H a /\ y = [narg a; arg v "T" (even_neg R [a; p; r]); narg r]))))))].
      - assert (HN : forall r, In r (filter (fun r => negb (existsb (Nat.eqb r) blocked)) nodes) <-> In r nodes /\ ~ subordinate H R nodes r).
        { intros r. rewrite filter_In, negb_true_iff, <- not_true_iff_false, <- HB. apply and_iff_compat_l. apply not_iff_compat.
          rewrite existsb_exists. split; [intros (z & Hz & E); apply Nat.eqb_eq in E; subst; exact Hz|intros Hr; exists r; split; [exact Hr|apply Nat.eqb_refl]]. }
        intros y. split; intros (r & Hr); exists r.
        + destruct Hr as [Hr C]. apply HN in Hr. destruct Hr. auto.
        + destruct Hr as (A & B & C). split; [apply HN; auto|exact C].
      - intros r Hr. apply filter_In in Hr. pose proof (main_iff r (proj1 Hr)) as M. destruct (main_verb H R r).
        + eapply gives_iff; [|apply gives_app; [apply subjs_objs_ok|apply iobj_ok]]. cbv beta. intros y. split; [intros C; left; split; [apply M; reflexivity|exact C]|].
          intros [[_ C]|[F _]]; [exact C|]. exfalso. eapply noun_not_verb; [exact F|]. apply (proj1 M eq_refl).
        + pose proof (is_noun_iff r) as N. destruct (is_noun H r).
          * eapply gives_iff; [|apply gives_app3; [apply iprops_ok|apply copula_props_ok|apply pp_props_ok|apply adjs_ok]]. cbv beta. intros y. split.
            -- intros C. right. split; [apply N; reflexivity|exact C].
            -- intros [[F _]|[_ C]]; [apply M in F; discriminate|exact C].
          * eapply gives_iff; [|apply gives_nil]. intros y. split; [intros []|]. intros [[F _]|[F _]]; [apply M in F; discriminate|apply N in F; discriminate]. }
    assert (G3 : gives (gather (fun r => if tag_eqb (n_tag (H r)) VERB && negb (cannot_be_transitive R r) then stuples_from_objs H R past_participle r else Ok []) nodes) _)
      by (apply gives_gather; intros r _; apply gives_if; apply objs_ok).
    destruct G1 as (l1 & -> & G1). destruct G2 as (l2 & -> & G2). destruct G3 as (l3 & -> & G3). exists (l1 ++ l2 ++ l3). split; [reflexivity|].
    intros y. rewrite !in_app_iff, G1, G2, G3. clear G1 G2 G3. split.
    - intros [(r & Hr & M & s & o & s2 & Hs & Ho & Hc & C)|[(r & Hr & HS & C)|(r & Hr & M & Hw & o & Ho & ->)]].
      + apply (main_iff r Hr) in M. destruct C as [(L & I & ->)|[(L & o2 & Ho2 & ->)|(p & Hp & ->)]].
        * apply t_clause_intr; assumption.
        * apply t_clause_trans; assumption.
        * apply t_clause_prop; assumption.
      + destruct C as [(M & [[(s & Hs & I & ->)|(s & o & Hs & Ho & ->)]|(s & io & Hs & Hio & Hn & ->)])|(N & [(s & v & p & Hp & Ha & ->)|[(c & p & Hp & Ha & [->|(Ht & v & a & Hv & Hag & Hn & ->)])|[(x & p & Hp & Ha & ->)|(p & Hp & [->|(v & a & Hv & Hag & Hn & ->)])]]])].
        * apply t_intr; assumption.
        * apply t_trans; assumption.
        * apply t_rec; assumption.
        * apply t_iprop; assumption.
        * apply t_copula; assumption.
        * eapply t_copula_active; eassumption.
        * apply t_pp_prop; assumption.
        * apply t_adj; assumption.
        * eapply t_adj_active; eassumption.
      + apply andb_true_iff in M. destruct M as [V L]. apply verb_iff in V. apply negb_true_iff, not_linking_iff in L. apply t_passive; assumption.
    - intros T.
      assert (NS : forall n, nounish H n -> ~ subordinate H R nodes n).
      { intros n N (v & s & _ & _ & [_ V]). eapply noun_not_verb; eassumption. }
      destruct T as [v s o s2 M Hs Ho Hc L I|v s o s2 o2 M Hs Ho Hc L Ho2|v s o s2 p M Hs Ho Hc Hp|v s M NSub Hs I|v s o M NSub Hs Ho|v s io M NSub Hs Hio Hn|v o Hv V L Hw Ho
        |n s v p Hn N Hp Ha|n c p Hn N Hp Ha|n c p a v Hn N Hp Ht Hv Hag Ha|n x p Hn N Hp Ha|n a Hn N Ha|n p a v Hn N Hp Hv Hag Ha].
      1,2,3: left; exists v; (split; [apply M|]); (split; [apply (main_iff v (proj1 M)); exact M|]); exists s, o, s2; (split; [exact Hs|]); (split; [exact Ho|]); (split; [exact Hc|]).
      + left. auto.
      + right. left. split; [exact L|]. exists o2. auto.
      + right. right. exists p. auto.
      + right. left. exists v. split; [apply M|]. split; [exact NSub|]. left. split; [exact M|]. left. left. exists s. auto.
      + right. left. exists v. split; [apply M|]. split; [exact NSub|]. left. split; [exact M|]. left. right. exists s, o. auto.
      + right. left. exists v. split; [apply M|]. split; [exact NSub|]. left. split; [exact M|]. right. exists s, io. auto.
      + right. right. exists v. split; [exact Hv|]. split; [apply andb_true_iff; split; [apply verb_iff; exact V|apply negb_true_iff, not_linking_iff; exact L]|]. split; [exact Hw|]. exists o. auto.
      + right. left. exists n. split; [exact Hn|]. split; [apply NS; exact N|]. right. split; [exact N|]. left. exists s, v, p. auto.
      + right. left. exists n. split; [exact Hn|]. split; [apply NS; exact N|]. right. split; [exact N|]. right. left. exists c, p. auto.
      + right. left. exists n. split; [exact Hn|]. split; [apply NS; exact N|]. right. split; [exact N|]. right. left. exists c, p. split; [exact Hp|]. split; [right; exact Ht|].
        right. split; [exact Ht|]. exists v, a. auto.
      + right. left. exists n. split; [exact Hn|]. split; [apply NS; exact N|]. right. split; [exact N|]. right. right. left. exists x, p. auto.
      + right. left. exists n. split; [exact Hn|]. split; [apply NS; exact N|]. right. split; [exact N|]. right. right. right. exists a. auto.
      + right. left. exists n. split; [exact Hn|]. split; [apply NS; exact N|]. right. split; [exact N|]. right. right. right. exists p. split; [exact Hp|]. right. exists v, a. auto.
  Qed.
End Extract.
