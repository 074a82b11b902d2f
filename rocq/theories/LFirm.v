(** Proofs about names with an ampersand: the rules that join their pieces. *)
From Coq Require Import Ascii String.
From Coq Require Import List NArith ZArith Arith Bool Lia.
From Verif Require Import PyBase Regex MTokenizer STok SEnglish LBase LUdb LRegex LSub LTok LTokWords LAscii LRun LEnglish LEnglish2 LEnglish3 SFirm.
Import ListNotations.
Local Open Scope nat_scope.

Notation bd := (at_word_boundary A).
Lemma uc_upper c : cset_match A false (cls [AZ]) c = upper_case c.
Proof. unfold cset_match, upper_case. cbn [cs_neg cls cs_items existsb]. rewrite xorb_false_l, orb_false_r. unfold citem_match, AZ. cbn [existsb]. rewrite ?orb_false_r. reflexivity. Qed.
Lemma sp_space c : cset_match A false (cls [CSpace]) c = u_space A c.
Proof. unfold cset_match. cbn [cs_neg cls cs_items existsb]. rewrite xorb_false_l, orb_false_r. reflexivity. Qed.
Lemma amp_is c : cset_match A false (cc 38) c = true -> c = 38%N.
Proof. unfold cset_match. cbn [cs_neg cc cs_items existsb]. rewrite xorb_false_l, orb_false_r. intros H. exact (caseless_range A ascii_udb_ok false 38%N c eq_refl H). Qed.
Ltac inv_go :=
  repeat (cbn [m seqs uc sp ch aft bef caps Bool.eqb];
    match goal with
    | |- (if ?e then _ else None) = Some _ -> _ => destruct e eqn:?; [|discriminate]
    | |- match ?l with [] => None | _ :: _ => _ end = Some _ -> _ => destruct l as [|? ?]; [discriminate|]
    end).
Ltac inv_facts := repeat match goal with
  | H : cset_match A false (cls [AZ]) _ = true |- _ => rewrite uc_upper in H
  | H : cset_match A false (cls [CSpace]) _ = true |- _ => rewrite sp_space in H
  | H : cset_match A false (cc 38) _ = true |- _ => apply amp_is in H
  | H : (if ?e then true else false) = true |- _ => let E := fresh "B" in destruct e eqn:E; [clear H|discriminate H] end; subst.
Lemma inv0 b a st : match_at A (r_ic (ra 0)) (r_pat (ra 0)) b a = Some st -> exists x s1 y s2 s3 z a', a = x :: s1 :: y :: s2 :: 38%N :: s3 :: z :: a' /\ bd b a = true /\
  upper_case x = true /\ u_space A s1 = true /\ upper_case y = true /\ u_space A s2 = true /\ u_space A s3 = true /\ upper_case z = true /\ bd (z :: s3 :: 38%N :: s2 :: y :: s1 :: x :: b) a' = true.
Proof.
  unfold match_at. cbn [ra nth re_reattach r_pat r_ic mk]. inv_go. inv_facts. intros _. do 7 eexists. split; [reflexivity|]. repeat split; eassumption.
Qed.
Lemma inv1 b a st : match_at A (r_ic (ra 1)) (r_pat (ra 1)) b a = Some st -> exists x s1 s2 y s3 z a', a = x :: s1 :: 38%N :: s2 :: y :: s3 :: z :: a' /\ bd b a = true /\
  upper_case x = true /\ u_space A s1 = true /\ u_space A s2 = true /\ upper_case y = true /\ u_space A s3 = true /\ upper_case z = true /\ bd (z :: s3 :: y :: s2 :: 38%N :: s1 :: x :: b) a' = true.
Proof.
  unfold match_at. cbn [ra nth re_reattach r_pat r_ic mk]. inv_go. inv_facts. intros _. do 7 eexists. split; [reflexivity|]. repeat split; eassumption.
Qed.
Lemma inv2 b a st : match_at A (r_ic (ra 2)) (r_pat (ra 2)) b a = Some st -> exists x s1 s2 y a', a = x :: s1 :: 38%N :: s2 :: y :: a' /\ bd b a = true /\
  upper_case x = true /\ u_space A s1 = true /\ u_space A s2 = true /\ upper_case y = true /\ bd (y :: s2 :: 38%N :: s1 :: x :: b) a' = true.
Proof.
  unfold match_at. cbn [ra nth re_reattach r_pat r_ic mk]. inv_go. inv_facts. intros _. do 5 eexists. split; [reflexivity|]. repeat split; eassumption.
Qed.
(** *** the matches *)
Lemma cap1 n (c : char) b : rev (firstn (S n - n) (c :: b)) = [c].
Proof. replace (S n - n) with 1 by lia. reflexivity. Qed.
Ltac hit_go := repeat (cbn [m seqs uc sp ch aft bef caps];
    match goal with
    | |- context [cset_match A false (cls [AZ]) ?c] => rewrite (uc_upper c)
    | |- context [cset_match A false (cls [CSpace]) ?c] => rewrite (sp_space c)
    | H : upper_case ?c = true |- context [upper_case ?c] => rewrite H
    | |- context [u_space A 32%N] => change (u_space A 32%N) with true
    | |- context [cset_match A false (cc 38) 38%N] => change (cset_match A false (cc 38) 38%N) with true
    | |- context [bd ?b ?a] => replace (bd b a) with true by (symmetry; assumption)
    end; cbn [Bool.eqb]).
Lemma hit0 b x y z a : upper_case x = true -> upper_case y = true -> upper_case z = true -> bd b (x :: 32%N :: y :: 32%N :: 38%N :: 32%N :: z :: a) = true -> bd (z :: 32%N :: 38%N :: 32%N :: y :: 32%N :: x :: b) a = true ->
  match_at A (r_ic (ra 0)) (r_pat (ra 0)) b (x :: 32%N :: y :: 32%N :: 38%N :: 32%N :: z :: a) = Some {| bef := z :: 32%N :: 38%N :: 32%N :: y :: 32%N :: x :: b; aft := a; caps := [(3, [z]); (2, [y]); (1, [x])] |}.
Proof.
  intros Hx Hy Hz B1 B2. unfold match_at. cbn [ra nth re_reattach r_pat r_ic mk]. hit_go. unfold consumed. cbn [bef length]. rewrite !cap1. reflexivity.
Qed.
Lemma hit1 b x y z a : upper_case x = true -> upper_case y = true -> upper_case z = true -> bd b (x :: 32%N :: 38%N :: 32%N :: y :: 32%N :: z :: a) = true -> bd (z :: 32%N :: y :: 32%N :: 38%N :: 32%N :: x :: b) a = true ->
  match_at A (r_ic (ra 1)) (r_pat (ra 1)) b (x :: 32%N :: 38%N :: 32%N :: y :: 32%N :: z :: a) = Some {| bef := z :: 32%N :: y :: 32%N :: 38%N :: 32%N :: x :: b; aft := a; caps := [(3, [z]); (2, [y]); (1, [x])] |}.
Proof.
  intros Hx Hy Hz B1 B2. unfold match_at. cbn [ra nth re_reattach r_pat r_ic mk]. hit_go. unfold consumed. cbn [bef length]. rewrite !cap1. reflexivity.
Qed.
Lemma hit2 b x y a : upper_case x = true -> upper_case y = true -> bd b (x :: 32%N :: 38%N :: 32%N :: y :: a) = true -> bd (y :: 32%N :: 38%N :: 32%N :: x :: b) a = true ->
  match_at A (r_ic (ra 2)) (r_pat (ra 2)) b (x :: 32%N :: 38%N :: 32%N :: y :: a) = Some {| bef := y :: 32%N :: 38%N :: 32%N :: x :: b; aft := a; caps := [(2, [y]); (1, [x])] |}.
Proof.
  intros Hx Hy B1 B2. unfold match_at. cbn [ra nth re_reattach r_pat r_ic mk]. hit_go. unfold consumed. cbn [bef length]. rewrite !cap1. reflexivity.
Qed.
