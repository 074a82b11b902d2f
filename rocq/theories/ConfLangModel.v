(** Conformance of the language model layer with the expectations of the repository's own tests
    (tests/test_mkn_smoother.py, tests/test_token_context.py). Generated by tools/mkconf_langmodel.py. *)
From Coq Require Import Ascii String.
From Coq Require Import List NArith ZArith QArith Qabs Arith Bool.
From Verif Require Import PyBase Regex MUtils MNgram MSmooth MBuilder.
Import ListNotations.
Local Open Scope nat_scope.

Definition mkn_texts : list string := [
  "this is a list containing the tallest buildings in blobby land .";
  "the classic pyramid is the tallest building in blobby land .";
  "the classic hotel is the tallest tower in blobby land .";
  "the classic tower is the lowest tower in blobby land .";
  "the pyramid is the tallest tower in blobby !";
  "this is the classic pyramid .";
  "this is a hotel list ."]%string.
Definition U := ascii_udb.
Definition mkn_sentences : list (list (list str)) := map (fun t => [split_ws (u_space U) (lit t)]) mkn_texts.
Definition mkn_test_store : res store := foldM (add_text U 3) [] mkn_sentences.
(** assertAlmostEqual: equal when the difference is rounded to 7 decimals *)
Definition almost (a b : Q) : bool := Qle_bool (Qabs (a - b)) (1 # 20000000).
Definition mkn_test (nb_processes : Z) : res (mkn * list (list Q)) :=
  let! s := mkn_test_store in
  let! m := mkn_init U (store_ngrams s) 3 in
  let! (uni, unis) := calc_unigram_probas m nb_processes in
  let! bi := calc_higher_order_probas U m unis nb_processes 2 in
  let! tri := calc_higher_order_probas U m unis nb_processes 3 in
  Ok (m, [uni; bi; tri]).
(** the values are found for all the ngrams of one order *)
Definition values_ok (m : mkn) (order : nat) (probas : list Q) (expected : list (string * Q)) : bool :=
  forallb (fun '(t, v) => existsb (fun '(n, p) => str_eqb (ng_text n) (lit t) && almost v p)
                                  (combine (get_order_or_nil (k_ngrams (mk_counts m)) order) probas)) expected.
Definition is_key_error (r : res Q) : bool := match r with Err KeyError => true | _ => false end.
Definition almost_res (r : res Q) (q : Q) : bool := match r with Ok x => almost x q | _ => false end.
Definition expected_1 : list (string * Q) := [("the", (37037037 # 500000000));
  ("is", (37037037 # 250000000));
  ("in", (111111111 # 1000000000));
  ("blobby", (37037037 # 1000000000));
  ("tallest", (37037037 # 1000000000));
  ("land", (37037037 # 1000000000));
  ("classic", (37037037 # 1000000000));
  ("tower", (111111111 # 1000000000));
  ("this", (0 # 1));
  ("pyramid", (37037037 # 500000000));
  ("a", (37037037 # 1000000000));
  ("list", (37037037 # 500000000));
  ("hotel", (37037037 # 500000000));
  ("containing", (37037037 # 1000000000));
  ("buildings", (37037037 # 1000000000));
  ("building", (37037037 # 1000000000));
  ("lowest", (37037037 # 1000000000))]%string.
Definition expected_2 : list (string * Q) := [("in blobby", (119259259 # 100000000));
  ("is the", (42857143 # 50000000));
  ("the tallest", (24876543 # 50000000));
  ("blobby land", (99259259 # 100000000));
  ("the classic", (24876543 # 50000000));
  ("this is", (64197531 # 50000000));
  ("tower in", (49537037 # 50000000));
  ("is a", (7142857 # 50000000));
  ("classic pyramid", (7330247 # 25000000));
  ("pyramid is", (7654321 # 20000000));
  ("tallest tower", (31481481 # 100000000));
  ("a list", (10802469 # 50000000));
  ("list containing", (3580247 # 20000000));
  ("containing the", (7654321 # 20000000));
  ("tallest buildings", (10493827 # 100000000));
  ("buildings in", (40740741 # 100000000));
  ("tallest building", (10493827 # 100000000));
  ("building in", (40740741 # 100000000));
  ("classic hotel", (12654321 # 100000000));
  ("hotel is", (2654321 # 10000000));
  ("classic tower", (2962963 # 20000000));
  ("tower is", (1419753 # 20000000));
  ("the lowest", (154321 # 5000000));
  ("lowest tower", (40740741 # 100000000));
  ("the pyramid", (1419753 # 50000000));
  ("a hotel", (10802469 # 50000000));
  ("hotel list", (10802469 # 50000000))]%string.
Definition expected_3 : list (string * Q) := [("in blobby land", (56386999 # 100000000));
  ("is the tallest", (41058201 # 100000000));
  ("tower in blobby", (449473 # 625000));
  ("this is a", (8027211 # 25000000));
  ("the classic pyramid", (7813681 # 25000000));
  ("pyramid is the", (14122449 # 20000000));
  ("the tallest tower", (2069161 # 6250000));
  ("tallest tower in", (29239103 # 50000000));
  ("is a list", (28017133 # 100000000));
  ("a list containing", (2537163 # 5000000));
  ("list containing the", (52506929 # 100000000));
  ("containing the tallest", (21718317 # 50000000));
  ("the tallest buildings", (7558579 # 50000000));
  ("tallest buildings in", (54270597 # 100000000));
  ("buildings in blobby", (77129 # 125000));
  ("classic pyramid is", (32237339 # 100000000));
  ("the tallest building", (7558579 # 50000000));
  ("tallest building in", (54270597 # 100000000));
  ("building in blobby", (77129 # 125000));
  ("the classic hotel", (1696901 # 10000000));
  ("classic hotel is", (5728773 # 12500000));
  ("hotel is the", (31632653 # 50000000));
  ("the classic tower", (9410431 # 50000000));
  ("classic tower is", (34198371 # 100000000));
  ("tower is the", (31632653 # 50000000));
  ("is the lowest", (962963 # 10000000));
  ("the lowest tower", (54270597 # 100000000));
  ("lowest tower in", (24048879 # 50000000));
  ("the pyramid is", (64474679 # 100000000));
  ("this is the", (39591837 # 100000000));
  ("is the classic", (962963 # 10000000));
  ("is a hotel", (28017133 # 100000000));
  ("a hotel list", (42302847 # 100000000))]%string.
Example mkn_conformance_1 : match mkn_test 1 with
  | Ok (m, [uni; bi; tri]) =>
  is_key_error (dq (mk_d1 m) 1) && is_key_error (dq (mk_d2 m) 1) && is_key_error (dq (mk_d3 m) 1) &&
  almost_res (dq (mk_d1 m) 2) (6666666667 # 10000000000) &&
  almost_res (dq (mk_d2 m) 2) (1 # 1) &&
  almost_res (dq (mk_d3 m) 2) (-1 # 1) &&
  almost_res (dq (mk_d1 m) 3) (7142857143 # 10000000000) &&
  almost_res (dq (mk_d2 m) 3) (1142857143 # 1000000000) &&
  almost_res (dq (mk_d3 m) 3) (1571428571 # 1000000000) &&
  (length uni =? 17) && (length bi =? 27) && (length tri =? 33) &&
  values_ok m 1 uni expected_1 && values_ok m 2 bi expected_2 && values_ok m 3 tri expected_3
  | _ => false end = true.
Proof. vm_compute. reflexivity. Qed.
Example mkn_conformance_3 : match mkn_test 3 with
  | Ok (m, [uni; bi; tri]) =>
  is_key_error (dq (mk_d1 m) 1) && is_key_error (dq (mk_d2 m) 1) && is_key_error (dq (mk_d3 m) 1) &&
  almost_res (dq (mk_d1 m) 2) (6666666667 # 10000000000) &&
  almost_res (dq (mk_d2 m) 2) (1 # 1) &&
  almost_res (dq (mk_d3 m) 2) (-1 # 1) &&
  almost_res (dq (mk_d1 m) 3) (7142857143 # 10000000000) &&
  almost_res (dq (mk_d2 m) 3) (1142857143 # 1000000000) &&
  almost_res (dq (mk_d3 m) 3) (1571428571 # 1000000000) &&
  (length uni =? 17) && (length bi =? 27) && (length tri =? 33) &&
  values_ok m 1 uni expected_1 && values_ok m 2 bi expected_2 && values_ok m 3 tri expected_3
  | _ => false end = true.
Proof. vm_compute. reflexivity. Qed.
Example mkn_conformance_40 : match mkn_test 40 with
  | Ok (m, [uni; bi; tri]) =>
  is_key_error (dq (mk_d1 m) 1) && is_key_error (dq (mk_d2 m) 1) && is_key_error (dq (mk_d3 m) 1) &&
  almost_res (dq (mk_d1 m) 2) (6666666667 # 10000000000) &&
  almost_res (dq (mk_d2 m) 2) (1 # 1) &&
  almost_res (dq (mk_d3 m) 2) (-1 # 1) &&
  almost_res (dq (mk_d1 m) 3) (7142857143 # 10000000000) &&
  almost_res (dq (mk_d2 m) 3) (1142857143 # 1000000000) &&
  almost_res (dq (mk_d3 m) 3) (1571428571 # 1000000000) &&
  (length uni =? 17) && (length bi =? 27) && (length tri =? 33) &&
  values_ok m 1 uni expected_1 && values_ok m 2 bi expected_2 && values_ok m 3 tri expected_3
  | _ => false end = true.
Proof. vm_compute. reflexivity. Qed.

Example tc_1 : exists e, candidates {| tc_token := lit "F3"; tc_before := [lit "L1"; lit "L2"]; tc_after := [lit "R4"; lit "R5"] |} 1 = Err e.
Proof. eexists. reflexivity. Qed.
Example tc_2 : candidates {| tc_token := lit "F3"; tc_before := [lit "L1"; lit "L2"]; tc_after := [lit "R4"; lit "R5"] |} 3 = Ok [lit "L1 L2 F3"; lit "L2 F3 R4"; lit "F3 R4 R5"].
Proof. reflexivity. Qed.
Example tc_3 : candidates {| tc_token := lit "F3"; tc_before := [lit "L1"; lit "L2"]; tc_after := [lit "R4"; lit "R5"] |} 2 = Ok [lit "L2 F3"; lit "F3 R4"].
Proof. reflexivity. Qed.
Example tc_4 : candidates {| tc_token := lit "F3"; tc_before := [lit "L1"; lit "L2"]; tc_after := [lit "R4"] |} 3 = Ok [lit "L1 L2 F3"; lit "L2 F3 R4"].
Proof. reflexivity. Qed.
Example tc_5 : candidates {| tc_token := lit "F3"; tc_before := [lit "L1"; lit "L2"]; tc_after := [lit "R4"] |} 2 = Ok [lit "L2 F3"; lit "F3 R4"].
Proof. reflexivity. Qed.
Example tc_6 : candidates {| tc_token := lit "F3"; tc_before := [lit "L2"]; tc_after := [lit "R4"] |} 3 = Ok [lit "L2 F3 R4"].
Proof. reflexivity. Qed.
Example tc_7 : candidates {| tc_token := lit "F3"; tc_before := [lit "L2"]; tc_after := [lit "R4"] |} 2 = Ok [lit "L2 F3"; lit "F3 R4"].
Proof. reflexivity. Qed.
Example tc_8 : candidates {| tc_token := lit "F3"; tc_before := []; tc_after := [] |} 3 = Ok [].
Proof. reflexivity. Qed.
Example tc_9 : candidates {| tc_token := lit "F3"; tc_before := []; tc_after := [] |} 2 = Ok [].
Proof. reflexivity. Qed.
