(** C83: predictions (syntax/models.py) and the batches they are made in (syntax/parser.py, tagger.py). *)
From Coq Require Import Ascii String.
From Coq Require Import List NArith ZArith Arith Bool Lia.
From Verif Require Import PyBase Regex MUtils MTree MVector MParser MBatch SUtils SVector STree SParser SBatch SLangModel LBase LUdb LParserCall LBatch.
Import ListNotations.
Local Open Scope nat_scope.

(** ** C83 *)
(** The predicted class of a row of probabilities is the most probable one, the first of these. *)
Theorem C83_most_probable : forall (F : Type) (le : F -> F -> bool) row k, total_order le -> argmax le row = Ok k <-> most_probable le row k.
Proof. intros F le row k T. apply argmax_spec. exact T. Qed.
(** A value that is not a number, below nothing, takes its place: the first of these is predicted. *)
Theorem C83_not_a_number : forall (F : Type) (le : F -> F -> bool) row j x, (forall y z, le y y = false -> le y z = false) ->
  nth_error row j = Some x -> le x x = false -> (forall i y, i < j -> nth_error row i = Some y -> le y y = true) -> argmax le row = Ok j.
Proof.
  intros F le row j x Hc Ej Hx Hn. destruct row as [|y l]; [destruct j; discriminate|]. cbn. destruct j as [|j].
  - cbn in Ej. injection Ej as ->. rewrite Hx. reflexivity.
  - rewrite (Hn 0 y ltac:(lia) eq_refl). f_equal. cbn in Ej. rewrite (argmax_from_nan le l y 0 1 j); [reflexivity| |intros k z w E H; auto|eauto].
    intros k z E Hk. apply (Hn (S k) z ltac:(lia) E).
Qed.
(** Networks that answer each sentence of a batch on its own (C97 says that those of the library do) give the parser and the tagger the most probable classes of each sentence,
    whatever the batches: no sentence gets the prediction of another one. *)
Theorem C83_batches : forall (V F : Type) (v0 : V) (U : udb) (le : F -> F -> bool) (N : networks V F) (S : sentence_networks V F) cs ws,
  total_order le -> shapes_ok V F S -> rowwise V F (charset_len cs) N S -> charset_ok cs -> ws_ok V ws ->
  exists M, picks le S M /\ models_ok V M /\
    (forall nb_processes batch_size token_lists, (1 <= nb_processes)%Z -> 1 <= batch_size -> (Z.of_nat (length token_lists) <= 2 ^ 53)%Z ->
       (forall tokens, In tokens token_lists -> length tokens <= 50) ->
       exists tags trees, batched_call V F v0 U le N cs ws nb_processes (Z.of_nat batch_size) token_lists = Ok (tags, trees) /\
         length tags = length token_lists /\ length trees = length token_lists /\
         Forall2 (fun tokens out => parsed V v0 U M cs ws tokens (fst out) (snd out)) token_lists (combine tags trees)) /\
    (forall token_lists, batched_tag V F v0 U le N cs ws token_lists = tagger_tag V v0 U cs ws (ptags_model M) token_lists).
Proof.
  intros V F v0 U le N S cs ws T HS HR HC HW. exists (models_of V F le S).
  assert (HM : models_ok V (models_of V F le S)) by (apply models_of_ok; exact HS).
  assert (HP : forall row n, length row = Datatypes.S n -> most_probable le row (picked F le row)).
  { intros row n L. apply argmax_spec; [exact T|]. apply argmax_picked. intros ->. discriminate. }
  assert (HF2 : forall rows n, Forall (fun r : list F => length r = Datatypes.S n) rows -> Forall2 (most_probable le) rows (map (picked F le) rows)).
  { intros rows n H. induction H; cbn; constructor; eauto. }
  split; [|split; [exact HM|split]].
  - constructor; cbn; intros; [apply (HF2 _ 16), (sh_tags _ _ _ HS)|apply (HF2 _ 24), (sh_deps _ _ _ HS)|apply (HP _ 3), (sh_trans _ _ _ HS)].
  - intros nb bs tl Hn Hb HL Hl. destruct (parser_call_ok V v0 U _ cs ws HM HW nb bs tl Hn Hb HL Hl) as (tags & trees & E & H).
    exists tags, trees. split; [|exact H]. apply (batched_call_ok V F v0 U le N S cs ws HS HR HC HW); assumption.
  - intros tl. apply (batched_tag_ok V F v0 U le N S); assumption.
Qed.

(** The networks of the witness: rows of numbers of one class, the tag depending on the vector of the second row *)
Definition b_row (n k : nat) : list Z := repeat 0%Z k ++ 5%Z :: repeat 0%Z (n - k - 1).
Definition b_tags (c : list (list nat)) : list (list Z) :=
  map (b_row 17) (0 :: (if nth 1 (nth 1 c []) 0 =? 1 then 8 else 14) :: 14 :: 8 :: repeat 0 48).
Definition b_one : sentence_networks nat Z := {|
  one_tags := fun c _ => b_tags c;
  one_deps := fun _ _ _ => map (b_row 25) (0 :: 24 :: 2 :: 18 :: repeat 0 48);
  one_trans := fun _ _ _ _ m1 _ => b_row 4 (if nth 1 m1 false then 0 else 1) |}.
Definition b_net : networks nat Z := {|
  net_tags := fun cs _ => Ok (map b_tags cs);
  net_deps := fun ts cs ws => Ok (map (fun _ => map (b_row 25) (0 :: 24 :: 2 :: 18 :: repeat 0 48)) cs);
  net_trans := fun _ _ _ _ ms _ => Ok (map (fun m1 => b_row 4 (if nth 1 m1 false then 0 else 1)) ms) |}.
Definition b_cs : charset := [(99%N, 0); (97%N, 1); (98%N, 2)].
Definition b_call := batched_call nat Z 0 ascii_udb Z.leb b_net b_cs [].
Example C83_witness : total_order Z.leb /\ shapes_ok nat Z b_one /\ rowwise nat Z (charset_len b_cs) b_net b_one /\ charset_ok b_cs /\ ws_ok nat [] /\
  (exists t, let ss := [[lit "a"; lit "b"; lit "c"]; [lit "b"; lit "a"; lit "c"]; []] in
    forall bs, In bs [1%Z; 2%Z; 5%Z] -> b_call 2 bs ss = Ok ([[NOUN; VERB; NOUN]; [VERB; VERB; NOUN]; []], [Some t; Some t; None])) /\
  batched_tag nat Z 0 ascii_udb Z.leb b_net b_cs [] [[lit "b"]] = Ok [[VERB; VERB; NOUN]] /\
  argmax Z.leb [1%Z; 3%Z; 2%Z; 3%Z] = Ok 1.
Proof.
  split; [split; intros; destruct (Z.leb_spec a b); try lia; auto; right; apply Z.leb_le; lia|].
  assert (R : forall n k, k < n -> length (b_row n k) = n) by (intros n k Hk; unfold b_row; rewrite app_length; cbn [length]; rewrite !repeat_length; lia).
  assert (RF : forall n l, forallb (fun k => k <? n) l = true -> Forall (fun r : list Z => length r = n) (map (b_row n) l)).
  { intros n l H. apply Forall_forall. intros r Hr. apply in_map_iff in Hr. destruct Hr as (k & <- & Hk). apply R. rewrite forallb_forall in H. apply Nat.ltb_lt. auto. }
  split; [constructor; cbn [one_tags one_deps one_trans b_one]|].
  - intros c w. unfold b_tags. destruct (_ =? _); (split; [reflexivity|apply RF; reflexivity]).
  - intros. split; [reflexivity|apply RF; reflexivity].
  - intros. apply R. destruct (nth 1 m1 false); lia.
  - split; [constructor; intros l _ _; cbn; f_equal; rewrite map_map; apply map_ext; [intros [c w]|intros [[t c] w]|intros [[[[[t d] c] w] m1] m2]]; reflexivity|].
    split; [split; [discriminate|]; intros c n [H|[H|[H|[]]]]; injection H as <- <-; cbn; lia|].
    split; [intros ? ? []|]. split; [|split; vm_compute; reflexivity]. eexists. cbv zeta. intros bs [<-|[<-|[<-|[]]]]; vm_compute; reflexivity.
Qed.
(** A network whose answer depends on the rest of the batch makes the tags depend on the size of the batches. *)
Definition b_mixed : networks nat Z := {|
  net_tags := fun cs _ => Ok (map (fun _ => map (b_row 17) (repeat (length cs) 52)) cs);
  net_deps := net_deps b_net; net_trans := net_trans b_net |}.
Theorem C83_mixed_batches : let call := batched_call nat Z 0 ascii_udb Z.leb b_mixed b_cs [] in
  exists t1 t2 tr1 tr2, call 1%Z 1%Z [[lit "a"]; [lit "b"]] = Ok ([[t1]; [t1]], tr1) /\ call 1%Z 2%Z [[lit "a"]; [lit "b"]] = Ok ([[t2]; [t2]], tr2) /\ t1 <> t2.
Proof. cbv zeta. do 4 eexists. split; [vm_compute; reflexivity|]. split; [vm_compute; reflexivity|]. discriminate. Qed.

Print Assumptions C83_most_probable.
Print Assumptions C83_not_a_number.
Print Assumptions C83_batches.
Print Assumptions C83_mixed_batches.
