(** Calls of the whole pipeline that show C34 and C60 to be false: from a text to its tuples, by networks of the right shapes that answer
    each sentence on its own. *)
From Coq Require Import Ascii String.
From Coq Require Import List NArith ZArith Arith Bool Lia.
From Verif Require Import PyBase Regex MUtils MTree MVector MParser MBatch MNgram MLangModel MNormal MNode MSem MTokenizer MSentencizer MPipeline MFull SUtils SNormal SLangModel SVector STree SParser SPipeline SBatch SFull LBase LUdb PNormal PPipeline PBatch PFull.
Import ListNotations.
Local Open Scope nat_scope.

(** The codes of a sentence's tokens, padded; the position of a mask; the transition for the top of the stack and the first of the buffer *)
Definition pad (l : list nat) : list nat := 0 :: l ++ repeat 0 (51 - length l).
Fixpoint index (m : list bool) : nat := match m with true :: _ => 0 | false :: m' => S (index m') | [] => 0 end.
Definition code_for (table : list (nat * nat * nat)) (m1 m2 : list bool) : nat :=
  match find (fun '(s, b, _) => (s + 1 =? index m1) && (b + 1 =? index m2)) table with Some (_, c) => c | None => 3 end.
Definition r_one (tags deps : list nat) (table : list (nat * nat * nat)) : sentence_networks unit Z := {|
  one_tags := fun _ _ => map (b_row 17) (pad tags);
  one_deps := fun _ _ _ => map (b_row 25) (pad deps);
  one_trans := fun _ _ _ _ m1 m2 => b_row 4 (code_for table m1 m2) |}.
Definition r_net (tags deps : list nat) (table : list (nat * nat * nat)) : networks unit Z := {|
  net_tags := fun cs _ => Ok (map (fun _ => map (b_row 17) (pad tags)) cs);
  net_deps := fun _ cs _ => Ok (map (fun _ => map (b_row 25) (pad deps)) cs);
  net_trans := fun _ _ _ _ ms ms' => Ok (map (fun '(m1, m2) => b_row 4 (code_for table m1 m2)) (combine ms ms')) |}.
Definition r_call net := full_call unit Z tt ascii_udb Z.leb net b_cs [] Z (option Z) w_leL 0%Z None w_lm w_lx [lit "cat"] p_sentencize.
Lemma r_ok tags deps table : length tags <= 51 -> length deps <= 51 -> forallb (fun k => k <? 17) tags = true -> forallb (fun k => k <? 25) deps = true ->
  forallb (fun '(_, _, k) => k <? 4) table = true -> shapes_ok unit Z (r_one tags deps table) /\ rowwise unit Z (charset_len b_cs) (r_net tags deps table) (r_one tags deps table).
Proof.
  intros L1 L2 H1 H2 H3.
  assert (R : forall n k, k < n -> length (b_row n k) = n) by (intros n k Hk; unfold b_row; rewrite app_length; cbn [length]; rewrite !repeat_length; lia).
  assert (RF : forall n l, 0 < n -> length l <= 51 -> forallb (fun k => k <? n) l = true -> length (map (b_row n) (pad l)) = 52 /\ Forall (fun r : list Z => length r = n) (map (b_row n) (pad l))).
  { intros n l Hn Ll H. split; [rewrite map_length; unfold pad; cbn [length]; rewrite app_length, repeat_length; lia|].
    apply Forall_forall. intros r Hr. apply in_map_iff in Hr. destruct Hr as (k & <- & Hk). apply R. destruct Hk as [<-|Hk]; [exact Hn|]. apply in_app_or in Hk. destruct Hk as [Hk|Hk].
    - rewrite forallb_forall in H. apply Nat.ltb_lt. auto.
    - apply repeat_spec in Hk. lia. }
  split; [constructor; cbn [one_tags one_deps one_trans r_one]; intros; try (apply RF; [lia|assumption|assumption])|].
  - apply R. unfold code_for. destruct (find _ table) as [[[s0 b0] c0]|] eqn:E; [|lia]. apply find_some in E. destruct E as [E _]. rewrite forallb_forall in H3. specialize (H3 _ E). cbn beta iota in H3. apply Nat.ltb_lt. exact H3.
  - constructor; intros l _ _; cbn [net_tags net_deps net_trans r_net one_tags one_deps one_trans r_one]; f_equal.
    + rewrite map_map. apply map_ext. intros [c w]. reflexivity.
    + rewrite map_map. apply map_ext. intros [[t c] w]. reflexivity.
    + induction l as [|[[[[[t d] c] w] m1] m2] l IH]; [reflexivity|]. cbn [map combine]. rewrite IH. reflexivity.
Qed.

(** "Anna Maria Ortiz sleeps": Maria and Ortiz are attached to Anna by FLAT. The transitions are right, reduce, right, reduce and left.
    Maria is in no tuple of the document. *)
Theorem C34_pipeline_refuted : exists N S tup, shapes_ok unit Z S /\ rowwise unit Z (charset_len b_cs) N S /\
  r_call N 1 1 [lit "Anna Maria Ortiz sleeps"] true = Ok [[[tup]]] /\ stuple_flatten true tup = lit "PI(anna ortiz, sleeps)".
Proof.
  exists (r_net [12; 12; 12; 14] [24; 10; 10; 2] [(0, 1, 1); (1, 2, 2); (0, 2, 1); (2, 3, 2); (0, 3, 0)]), (r_one [12; 12; 12; 14] [24; 10; 10; 2] [(0, 1, 1); (1, 2, 2); (0, 2, 1); (2, 3, 2); (0, 3, 0)]).
  eexists. destruct (r_ok [12; 12; 12; 14] [24; 10; 10; 2] [(0, 1, 1); (1, 2, 2); (0, 2, 1); (2, 3, 2); (0, 3, 0)]) as [H1 H2]; try reflexivity; [cbn; lia|cbn; lia|].
  split; [exact H1|]. split; [exact H2|]. split; [vm_compute; reflexivity|]. vm_compute. reflexivity.
Qed.
(** "no dogs want to bark": no argument of the only tuple is negative. *)
Theorem C60_pipeline_refuted : exists N S tup, shapes_ok unit Z S /\ rowwise unit Z (charset_len b_cs) N S /\
  r_call N 1 1 [lit "no dogs want to bark"] true = Ok [[[tup]]] /\ stuple_flatten true tup = lit "NTNI(dogs, want, dogs, bark)".
Proof.
  exists (r_net [6; 8; 14; 2; 14] [17; 24; 2; 11; 18] [(0, 1, 0); (1, 2, 0); (2, 3, 3); (3, 4, 0); (2, 4, 1)]), (r_one [6; 8; 14; 2; 14] [17; 24; 2; 11; 18] [(0, 1, 0); (1, 2, 0); (2, 3, 3); (3, 4, 0); (2, 4, 1)]).
  eexists. destruct (r_ok [6; 8; 14; 2; 14] [17; 24; 2; 11; 18] [(0, 1, 0); (1, 2, 0); (2, 3, 3); (3, 4, 0); (2, 4, 1)]) as [H1 H2]; try reflexivity; [cbn; lia|cbn; lia|].
  split; [exact H1|]. split; [exact H2|]. split; [vm_compute; reflexivity|]. vm_compute. reflexivity.
Qed.
Print Assumptions C34_pipeline_refuted.
Print Assumptions C60_pipeline_refuted.
