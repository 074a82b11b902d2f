(** Properties C63, C64, C73: the arguments of the nodes. The relations [subject], [object], ... are in SArgs.v. *)
From Coq Require Import Ascii String.
From Coq Require Import List NArith ZArith Arith Bool Lia.
From Verif Require Import PyBase Regex MUtils MTree MNormal MNode SUtils STree SNode SArgs LBase LText LTree LUdb LNode LNode3 LArgs LArgs2 PNode2.
Import ListNotations.
Local Open Scope nat_scope.

(** * C63 *)
Theorem C63_subjects_objects : forall H root h t nodes, registered root h = Ok t ->
  let R := find_args H t (fun _ => new_rels) nodes in
  forall v x, (In x (r_list (R v) A_subjs) <-> subject h H nodes v x) /\ (In x (r_list (R v) A_objs) <-> object h H nodes v x).
Proof.
  intros H root h t nodes Ht R v x. apply registered_tree in Ht. subst t. destruct (find_args_facts H root h nodes v) as (_ & _ & _ & F & _).
  unfold R. rewrite !F, !events_facts. split; reflexivity.
Qed.

(** * C64 *)
Theorem C64_negation : forall H root h t nodes, registered root h = Ok t ->
  forall r, r_aff (find_args H t (fun _ => new_rels) nodes r) = false <-> In r nodes /\ exists c, In (NEG, r, c) h.
Proof.
  intros H root h t nodes Ht r. apply registered_tree in Ht. subst t. destruct (find_args_facts H root h nodes r) as (_ & _ & F & _). rewrite F, events_facts. reflexivity.
Qed.

(** * C73 *)
Theorem C73_other_arguments : forall H root h t nodes, registered root h = Ok t ->
  let R := find_args H t (fun _ => new_rels) nodes in
  forall v,
    (forall x, In x (r_list (R v) A_iobjs) <-> dependent h nodes IOBJ v x) /\
    (forall x, In x (r_list (R v) A_exists) <-> dependent h nodes EXIST v x) /\
    (forall x, In x (r_list (R v) A_props) <-> dependent h nodes PROP v x) /\
    (forall x, In x (r_list (R v) A_iprops) <-> dependent h nodes IPROP v x) /\
    (forall x, In x (r_list (R v) A_adjs) <-> adjective h H nodes v x) /\
    (forall x, In x (r_list (R v) A_agents) <-> agent h H nodes v x) /\
    (forall e, In e (r_svi (R v)) <-> subj_verb_iprop h nodes v e) /\
    (forall e, In e (r_copulas (R v)) <-> copula_prop h H nodes v e) /\
    (forall e, In e (r_pps (R v)) <-> pp_prop h H nodes v e).
Proof.
  intros H root h t nodes Ht R v. apply registered_tree in Ht. subst t. destruct (find_args_facts H root h nodes v) as (_ & _ & _ & F & Fs & Fc & Fp).
  unfold R. repeat split; intros K; try apply F; try apply F in K; try apply Fs; try apply Fs in K; try apply Fc; try apply Fc in K; try apply Fp; try apply Fp in K;
    apply events_facts in K || apply events_facts; exact K.
Qed.

(** "Cats and dogs chase and eat mice": the two subjects and the object are shared by the two verbs. *)
Example C63_witness :
  let H := w_heap [("cats", NOUN); ("dogs", NOUN); ("chase", VERB); ("eat", VERB); ("mice", NOUN)]%string in
  let h := [(SUBJ, 2, 0); (AND, 0, 1); (AND, 2, 3); (OBJ, 2, 4)] in
  exists t, registered 2 h = Ok t /\
    let R := find_args H t (fun _ => new_rels) [0; 1; 2; 3; 4] in
    map (fun v => (r_list (R v) A_subjs, r_list (R v) A_objs)) [2; 3] = [([0; 1], [4]); ([0; 1], [4])] /\
    subject h H [0; 1; 2; 3; 4] 3 1.
Proof.
  eexists. split; [reflexivity|]. split; [vm_compute; reflexivity|].
  apply subject_direct with (x := 0) (v := 2) (y := 0).
  - split; [cbn; auto|reflexivity].
  - right. split; [reflexivity|]. intros z F. destruct F as [y [E _] _|p y _ E _ _ _]; [discriminate E|]. cbv in E. intuition discriminate.
  - right. split; [split; [cbn; auto|]|]; [left; cbn; auto|]. intros [c F]. cbn in F. intuition discriminate.
  - right. split; [cbn; auto|]. left. cbn. auto.
Qed.
(** Relative pronoun and long-distance rules: "the man who sings", "the apple I ate", "I ate but drank". *)
Example C63_witness_relative :
  let H := w_heap [("man", NOUN); ("who", PRON); ("sings", VERB)]%string in
  exists t, registered 0 [(CPL, 0, 2); (SUBJ, 2, 1)] = Ok t /\ r_list (find_args H t (fun _ => new_rels) [0; 1; 2] 2) A_subjs = [0].
Proof. eexists. split; [reflexivity|]. vm_compute. reflexivity. Qed.
Example C63_witness_distant :
  let H := w_heap [("apple", NOUN); ("I", PRON); ("ate", VERB)]%string in
  exists t, registered 0 [(CPL, 0, 2); (SUBJ, 2, 1)] = Ok t /\ r_list (find_args H t (fun _ => new_rels) [0; 1; 2] 2) A_objs = [0].
Proof. eexists. split; [reflexivity|]. vm_compute. reflexivity. Qed.
Example C64_witness :
  let H := w_heap [("dogs", NOUN); ("not", ADV); ("bark", VERB)]%string in
  exists t, registered 2 [(SUBJ, 2, 0); (NEG, 2, 1)] = Ok t /\ map (fun r => r_aff (find_args H t (fun _ => new_rels) [0; 2] r)) [0; 1; 2] = [true; true; false].
Proof. eexists. split; [reflexivity|]. vm_compute. reflexivity. Qed.
(** "houses painted by Ann are green": an adjective, an agent and a property by copula *)
Example C73_witness :
  let H := w_heap [("houses", NOUN); ("painted", ADJ); ("by", PREP); ("Ann", PROPN); ("are", VERB); ("green", ADJ)]%string in
  let h := [(SUBJ, 4, 0); (CPL, 0, 1); (CPL, 1, 3); (MARK, 3, 2); (PROP, 4, 5)] in
  exists t, registered 4 h = Ok t /\ let R := find_args H t (fun _ => new_rels) [0; 1; 3; 4; 5] in
    r_list (R 0) A_adjs = [1] /\ r_list (R 1) A_agents = [3] /\ r_copulas (R 0) = [(4, 5)] /\ r_list (R 4) A_props = [5].
Proof. eexists. split; [reflexivity|]. vm_compute. auto. Qed.

Print Assumptions C63_subjects_objects.
Print Assumptions C64_negation.
Print Assumptions C73_other_arguments.
