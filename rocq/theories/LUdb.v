(** The concrete ASCII database satisfies what is assumed of Unicode databases. *)
From Coq Require Import Ascii String.
From Coq Require Import List NArith ZArith Arith Bool Lia.
From Verif Require Import PyBase Regex LBase.
Import ListNotations.

Definition below128 : list N := map N.of_nat (seq 0 128).
Lemma below128_In c : (c < 128)%N -> In c below128.
Proof. intros H. unfold below128. apply in_map_iff. exists (N.to_nat c). split; [apply N2Nat.id|]. apply in_seq. lia. Qed.
Lemma ascii_forall (p : N -> bool) : forallb p below128 = true -> forall c, (c < 128)%N -> p c = true.
Proof. intros H c Hc. rewrite forallb_forall in H. apply H. apply below128_In. exact Hc. Qed.
Lemma letter_range c : is_letter c = true -> (c < 128)%N.
Proof. unfold is_letter, is_upper, is_lower. rewrite !orb_true_iff, !andb_true_iff, !N.leb_le. lia. Qed.
Lemma ascii_udb_ok : udb_ok ascii_udb.
Proof.
  constructor; cbn -[N.ltb ascii_space code_symbols].
  - intros c H. apply N.ltb_lt in H. rewrite H. reflexivity.
  - reflexivity.
  - reflexivity.
  - intros c. destruct (N.ltb_spec c 128) as [H|H].
    + intros E. apply (ascii_forall (fun c => negb (ascii_space c) || negb (ascii_word c))) in H; [|reflexivity]. rewrite E in H. cbn in H. destruct (ascii_word c); [discriminate|reflexivity].
    + intros _. unfold ascii_word, is_letter, is_upper, is_lower, is_digit.
      repeat match goal with |- context [(?a <=? ?b)%N] => destruct (N.leb_spec a b); try lia end; cbn; destruct (N.eqb_spec c 95); try reflexivity; lia.
  - intros c H. unfold ascii_word. rewrite H. rewrite ?orb_true_r. reflexivity.
  - intros c. destruct (is_letter c); left; reflexivity.
  - intros c H. apply (ascii_forall (fun c => existsb (N.eqb (ascii_swap c)) (if is_letter c then [c; ascii_swap c] else [c]))) in H; [|vm_compute; reflexivity].
    apply existsb_exists in H. destruct H as (x & Hx & E). apply N.eqb_eq in E. subst. exact Hx.
  - intros c d. destruct (is_letter c) eqn:E.
    + intros [<-|[<-|[]]] _; [left; reflexivity|]. right. pose proof (letter_range c E) as H.
      apply (ascii_forall (fun c => negb (is_letter c) || is_letter (ascii_swap c))) in H; [|reflexivity]. rewrite E in H. exact H.
    + intros [<-|[]] _. left. reflexivity.
  - intros c d _. destruct (is_letter c); intros [<-|H] _; auto; [destruct H as [<-|[]]; auto|destruct H].
  - reflexivity.
  - intros c d [<-|[]]. unfold ascii_lower. destruct (is_upper c) eqn:E; [|reflexivity].
    assert (H : (c < 128)%N) by (apply letter_range; unfold is_letter; rewrite E; rewrite ?orb_true_r; reflexivity).
    assert (Hs : (c + 32 < 128)%N) by (unfold is_upper in E; apply andb_true_iff in E; rewrite !N.leb_le in E; lia).
    pose proof H as H'. apply N.ltb_lt in H'. rewrite H'. apply N.ltb_lt in Hs. rewrite Hs.
    apply (ascii_forall (fun c : N => negb (is_upper c) || Bool.eqb (ascii_space (c + 32)%N) (ascii_space c))) in H; [|reflexivity]. rewrite E in H. apply Bool.eqb_prop. exact H.
  - discriminate.
  - intros c d Hc. assert (HL : forall x, In x code_symbols -> is_letter x = false).
    { intros x Hx. cbn in Hx. repeat (destruct Hx as [<-|Hx]; [reflexivity|]). destruct Hx. }
    assert (HS : forall x, In x code_symbols -> (128 <= x)%N).
    { intros x Hx. cbn in Hx. repeat (destruct Hx as [<-|Hx]; [vm_compute; discriminate|]). destruct Hx. }
    rewrite (HL c Hc). intros [[<-|[]]|H]; [reflexivity|]. destruct (is_letter d) eqn:E; [|destruct H as [->|[]]; reflexivity].
    destruct H as [->|[H|[]]]; [reflexivity|]. exfalso. pose proof (letter_range d E) as Hd.
    apply (ascii_forall (fun c => (ascii_swap c <? 128)%N)) in Hd; [|reflexivity]. apply N.ltb_lt in Hd. specialize (HS c Hc). rewrite H in Hd. lia.
  - intros c Hc. cbn in Hc. repeat (destruct Hc as [<-|Hc]; [reflexivity|]). destruct Hc.
  - intros c Hc. cbn in Hc. repeat (destruct Hc as [<-|Hc]; [reflexivity|]). destruct Hc.
  - intros c d. destruct (is_letter c) eqn:E; [|intros [<-|[]]; reflexivity]. pose proof (letter_range c E) as Hc. intros [<-|[<-|[]]]; [reflexivity|].
    assert (Hs : (ascii_swap c < 128)%N) by (apply N.ltb_lt; exact (ascii_forall (fun c => (ascii_swap c <? 128)%N) eq_refl c Hc)).
    apply N.ltb_lt in Hs. pose proof Hc as Hc'. apply N.ltb_lt in Hc'. rewrite Hs, Hc'.
    apply (ascii_forall (fun c : N => negb (is_letter c) || Bool.eqb (ascii_space (ascii_swap c)) (ascii_space c))) in Hc; [|reflexivity]. rewrite E in Hc. apply Bool.eqb_prop. exact Hc.
Qed.
