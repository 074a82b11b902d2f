(** Model of scrappybara/langmodel: smoother.py, mle_smoother.py, mkn_smoother.py.
    Numbers are exact rationals: binary64 rounding is not modelled. numpy does not raise on a division by zero
    but gives inf or nan; here such a division is the exception ZeroDivisionError, so that a theorem saying that
    no exception is raised says that no denominator is zero. *)
From Coq Require Import Ascii String.
From Coq Require Import List NArith ZArith QArith Qminmax Arith Bool.
From Verif Require Import PyBase Regex MUtils MNgram.
Import ListNotations.
Local Open Scope nat_scope.

Definition Qn (n : nat) : Q := inject_Z (Z.of_nat n).
Definition qdiv (x y : Q) : res Q := if Qeq_bool y 0 then Err ZeroDivisionError else Ok (x / y)%Q.

(** * smoother.py *)
(** range(a, b) *)
Definition range (a b : nat) : list nat := seq a (b - a).
(** langmodel/smoother.py:37-40 [_process_ranges]: np.linspace with dtype=int takes the floor of each mark *)
Definition process_ranges (nb_samples : nat) (nb_processes : Z) : list (list nat) :=
  map (fun '(a, b) => range (Z.to_nat (b64_int a)) (Z.to_nat (b64_int b))) (adjacent (linspace (Z.of_nat nb_samples) nb_processes)).
(** langmodel/smoother.py:17-22 [calc_ngrams_multithread]: [calc] is the computation of np_probas of a slice *)
Definition calc_ngrams_multithread {S} (slices : list S) (calc : S -> res (list Q)) (nb_processes : Z) : res (list Q) :=
  let! outs := run_multithreads calc slices nb_processes in
  let! first := index outs 0 in
  Ok (fold_left (fun acc x => acc ++ x) (slice (Some 1%Z) None outs) first).

(** order => list of ngrams *)
Definition by_order := dict nat (list ngram).
Definition get_order (d : by_order) (order : nat) : res (list ngram) := of_option KeyError (dget Nat.eqb order d).
(** smoother.py:42-43 [ngrams], and the .get(order, []) of the smoothers *)
Definition get_order_or_nil (d : by_order) (order : nat) : list ngram :=
  match dget Nat.eqb order d with Some l => l | None => [] end.
(** for idx, proba in enumerate(np_probas): ngrams[idx].proba = proba *)
Fixpoint assign_probas (ngrams : list ngram) (probas : list Q) : res (list ngram) :=
  match probas, ngrams with
  | [], _ => Ok ngrams
  | _ :: _, [] => Err IndexError
  | p :: ps, n :: ns => let! r := assign_probas ns ps in Ok (set_proba n p :: r)
  end.

Section Smoothers.
  Context (U : udb).

  (** * mle_smoother.py *)
  (** mle_smoother.py:26-32 [__init__]: the ngrams by order and the total counts *)
  Definition mle_init (ngrams : list ngram) (last_order : nat) : res (by_order * dict nat nat) :=
    foldM (fun '(d, totals) n =>
        let! t := of_option KeyError (dget Nat.eqb (ng_order U n) totals) in
        Ok (append_to_dict_list Nat.eqb d (ng_order U n) n, dset Nat.eqb (ng_order U n) (t + ng_count n) totals))
      ([], map (fun o => (o, 0)) (seq 1 last_order)) ngrams.
  (** mle_smoother.py:36-43: one order *)
  Definition mle_order (nb_processes : Z) (totals : dict nat nat) (d : by_order) (order : nat) : res by_order :=
    let! ngrams := get_order d order in
    let! total := of_option KeyError (dget Nat.eqb order totals) in
    let! slices := mapM (mapM (fun i => let! n := of_option IndexError (nth_error ngrams i) in Ok (Qn (ng_count n))))
                        (process_ranges (length ngrams) nb_processes) in
    let! probas := calc_ngrams_multithread slices (mapM (fun c => qdiv c (Qn total))) nb_processes in
    let! ngrams' := assign_probas ngrams probas in
    Ok (dset Nat.eqb order ngrams' d).
  (** mle_smoother.py:34-44 [__call__] *)
  Definition mle_smoother (ngrams : list ngram) (last_order : nat) (nb_processes : Z) : res by_order :=
    let! (d, totals) := mle_init ngrams last_order in
    foldM (mle_order nb_processes totals) d (seq 1 last_order).

  (** * mkn_smoother.py *)
  (** collections.Counter: a missing key counts 0 *)
  Definition cget {K} (eqb : K -> K -> bool) (k : K) (c : dict K nat) : nat :=
    match dget eqb k c with Some n => n | None => 0 end.
  Definition cincr {K} (eqb : K -> K -> bool) (k : K) (c : dict K nat) : dict K nat := dset eqb k (cget eqb k c + 1) c.

  (** mkn_smoother.py:18-26: the counters *)
  Record mkn_counts := {
    k_ngrams : by_order;
    k_wcs : dict str nat; k_wc1 : dict str nat; k_wc2 : dict str nat; k_wc3 : dict str nat;
    k_n1 : dict nat nat; k_n2 : dict nat nat; k_n3 : dict nat nat; k_n4 : dict nat nat
  }.
  Definition no_counts : mkn_counts :=
    {| k_ngrams := []; k_wcs := []; k_wc1 := []; k_wc2 := []; k_wc3 := []; k_n1 := []; k_n2 := []; k_n3 := []; k_n4 := [] |}.
  (** mkn_smoother.py:27-49: the loop over the ngrams *)
  Definition count_ngram (c : mkn_counts) (n : ngram) : mkn_counts :=
    let order := ng_order U n in
    let tokens := ng_tokens U n in
    let count := ng_count n in
    let bump (b : bool) (d : dict nat nat) := if b then cincr Nat.eqb order d else d in
    let bumps (b : bool) (k : str) (d : dict str nat) := if b then cincr str_eqb k d else d in
    let multi := 1 <? order in
    let wc := joinsp [joinsp (slice None (Some (-1)%Z) tokens); WC] in
    {| k_ngrams := append_to_dict_list Nat.eqb (k_ngrams c) order n;
       k_wcs := bumps (2 <? order) (joinsp [WC; joinsp (slice (Some 1%Z) (Some (-1)%Z) tokens); WC])
                  (bumps multi (joinsp [WC; joinsp (slice (Some 1%Z) None tokens)]) (k_wcs c));
       k_wc1 := bumps (multi && (count =? 1)) wc (k_wc1 c);
       k_wc2 := bumps (multi && (count =? 2)) wc (k_wc2 c);
       k_wc3 := bumps (multi && negb (count =? 1) && negb (count =? 2)) wc (k_wc3 c);
       k_n1 := bump (count =? 1) (k_n1 c);
       k_n2 := bump (count =? 2) (k_n2 c);
       k_n3 := bump (count =? 3) (k_n3 c);
       k_n4 := bump (count =? 4) (k_n4 c) |}.

  (** mkn_smoother.py:16-62 [_prepare_mkn], 110-126 [__init__] *)
  Record mkn := {
    mk_counts : mkn_counts; mk_last_order : nat;
    mk_d1 : dict nat Q; mk_d2 : dict nat Q; mk_d3 : dict nat Q;
    mk_lookup : dict str ngram
  }.
  (** mkn_smoother.py:54-61: the discounts of one order *)
  Definition discounts_of (c : mkn_counts) (order : nat) : res (Q * Q * Q) :=
    let n1 := cget Nat.eqb order (k_n1 c) in
    let n2 := cget Nat.eqb order (k_n2 c) in
    let n3 := cget Nat.eqb order (k_n3 c) in
    let n4 := cget Nat.eqb order (k_n4 c) in
    if existsb (fun x => x =? 0) [n1; n2; n3; n4] then Err MKNNotEnoughDataError
    else
      let! y := qdiv (Qn n1) (Qn n1 + 2 * Qn n2) in
      let! t1 := qdiv (2 * y * Qn n2) (Qn n1) in
      let! t2 := qdiv (3 * y * Qn n3) (Qn n2) in
      let! t3 := qdiv (4 * y * Qn n4) (Qn n3) in
      Ok (1 - t1, 2 - t2, 3 - t3)%Q.
  Definition mkn_init (ngrams : list ngram) (last_order : nat) : res mkn :=
    let c := fold_left count_ngram ngrams no_counts in
    let! (d1, d2, d3) := foldM (fun '(d1, d2, d3) order =>
        let! (v1, v2, v3) := discounts_of c order in
        Ok (dset Nat.eqb order v1 d1, dset Nat.eqb order v2 d2, dset Nat.eqb order v3 d3))
      ([], [], []) (seq 2 (last_order - 1)) in
    Ok {| mk_counts := c; mk_last_order := last_order; mk_d1 := d1; mk_d2 := d2; mk_d3 := d3;
          mk_lookup := fold_left (fun d n => dset str_eqb (ng_text n) n d) (concat (dvalues (k_ngrams c))) [] |}.

  Definition dq (d : dict nat Q) (order : nat) : res Q := of_option KeyError (dget Nat.eqb order d).
  (** mkn_smoother.py:140-147 [__discount] *)
  Definition discount (m : mkn) (order countc : nat) : res Q :=
    match countc with
    | 0 => Ok 0%Q
    | 1 => dq (mk_d1 m) order
    | 2 => dq (mk_d2 m) order
    | _ => dq (mk_d3 m) order
    end.

  (** mkn_smoother.py:149-173 [__mkn_pack] *)
  Record pack := { pk_cl : nat; pk_cl_d : Q; pk_crl : nat;
                   pk_n1 : nat; pk_n1_d : Q; pk_n2 : nat; pk_n2_d : Q; pk_n3 : nat; pk_n3_d : Q }.
  Definition find_ngram (m : mkn) (text : str) : res ngram := of_option KeyError (dget str_eqb text (mk_lookup m)).
  Definition mkn_pack (m : mkn) (n : ngram) (order : nat) : res pack :=
    if 1 <? order then
      let c := mk_counts m in
      let! (cl, cl_d, crl, last_wc) :=
        (if ng_order U n =? order then
           let cl := ng_count n in
           let! cl_d := discount m order cl in
           let! w := without_last_token U n in
           let! h := find_ngram m w in
           let! last_wc := wc_last_token U n in
           Ok (cl, cl_d, ng_count h, last_wc)
         else
           let! lo := lower_order U n order in
           let! lower := find_ngram m lo in
           let cl := cget str_eqb (prepend_wc lower) (k_wcs c) in
           let! cl_d := discount m (order + 1) cl in
           let! cn := continuous_ngram U lower in
           let! last_wc := wc_last_token U lower in
           Ok (cl, cl_d, cget str_eqb cn (k_wcs c), last_wc)) in
      let! n1_d := dq (mk_d1 m) order in
      let! n2_d := dq (mk_d2 m) order in
      let! n3_d := dq (mk_d3 m) order in
      Ok {| pk_cl := cl; pk_cl_d := cl_d; pk_crl := crl;
            pk_n1 := cget str_eqb last_wc (k_wc1 c); pk_n1_d := n1_d;
            pk_n2 := cget str_eqb last_wc (k_wc2 c); pk_n2_d := n2_d;
            pk_n3 := cget str_eqb last_wc (k_wc3 c); pk_n3_d := n3_d |}
    else Err AssertionError.

  (** The operands of mkn_smoother.py:78-95: numpy arrays by order, the unigram probabilities at the end.
      Simplification: an array per component of the packs is kept as one list of packs. The discounts r1_d, r2_d and
      r3_d of mkn_smoother.py:193-207 are those of the last pack of the slice, as in the source. *)
  Inductive operands := Uni (mkns : list Q) | Multi (packs : list pack) (rest : operands).
  (** element-wise operation on arrays; their lengths are equal *)
  Fixpoint zipM {A B C} (f : A -> B -> res C) (l1 : list A) (l2 : list B) : res (list C) :=
    match l1, l2 with
    | [], [] => Ok []
    | x :: l1', y :: l2' => let! z := f x y in let! r := zipM f l1' l2' in Ok (z :: r)
    | _, _ => Err ValueError
    end.
  (** mkn_smoother.py:78-95 [_calc_proba_recursive] *)
  Fixpoint calc_proba_recursive (ops : operands) : res (list Q) :=
    match ops with
    | Uni l => Ok l
    | Multi packs rest =>
      let! low := calc_proba_recursive rest in
      match rev packs with
      | [] => zipM (fun (p q : Q) => Ok q) [] low
      | lst :: _ =>
        zipM (fun p q =>
          let! cc := qdiv (Qmax (Qn (pk_cl p) - pk_cl_d p) 0) (Qn (pk_crl p)) in
          let! weight := qdiv (Qn (pk_n1 p) * pk_n1_d lst + Qn (pk_n2 p) * pk_n2_d lst + Qn (pk_n3 p) * pk_n3_d lst) (Qn (pk_crl p)) in
          Ok (cc + weight * q)%Q) packs low
      end
    end.

  (** mkn_smoother.py:175-209 [__mkn_arrays]; [unis] is __uni_mkns_lookup *)
  Fixpoint mkn_arrays (m : mkn) (unis : dict str Q) (ngrams : list ngram) (order : nat) (process_range : list nat) : res operands :=
    match order with
    | 0 => Err OutOfFuel        (* the recursion starts at 2 or more and stops at 1 *)
    | 1 =>
      let! l := mapM (fun i =>
          let! n := of_option IndexError (nth_error ngrams i) in
          let! t := last_token U n in
          of_option KeyError (dget str_eqb t unis)) process_range in
      Ok (Uni l)
    | S order' =>
      let! packs := mapM (fun i =>
          let! n := of_option IndexError (nth_error ngrams i) in mkn_pack m n order) process_range in
      let! rest := mkn_arrays m unis ngrams order' process_range in
      Ok (Multi packs rest)
    end.

  (** mkn_smoother.py:220-232 [calc_unigram_probas]: the probabilities and __uni_mkns_lookup. nb_uni is the number of
      unigrams (line 117). *)
  Definition calc_unigram_probas (m : mkn) (nb_processes : Z) : res (list Q * dict str Q) :=
    let c := mk_counts m in
    let unigrams := get_order_or_nil (k_ngrams c) 1 in
    let nb_bigrams := length (get_order_or_nil (k_ngrams c) 2) in
    let! slices := mapM (mapM (fun i =>
        let! n := of_option IndexError (nth_error unigrams i) in
        Ok (Qn (cget str_eqb (prepend_wc n) (k_wcs c))))) (process_ranges (length unigrams) nb_processes) in
    let! probas := calc_ngrams_multithread slices (mapM (fun x => qdiv x (Qn nb_bigrams))) nb_processes in
    Ok (probas, fold_left (fun d '(n, p) => dset str_eqb (ng_text n) p d) (combine unigrams probas) []).

  (** mkn_smoother.py:234-239 [calc_higher_order_probas] *)
  Definition calc_higher_order_probas (m : mkn) (unis : dict str Q) (nb_processes : Z) (order : nat) : res (list Q) :=
    if 1 <? order then
      let ngrams := get_order_or_nil (k_ngrams (mk_counts m)) order in
      let! slices := mapM (mkn_arrays m unis ngrams order) (process_ranges (length ngrams) nb_processes) in
      calc_ngrams_multithread slices calc_proba_recursive nb_processes
    else Err AssertionError.

  (** self._ngrams[order][idx].proba = proba: the dictionary is indexed only if there is a probability *)
  Definition assign_order (d : by_order) (order : nat) (probas : list Q) : res by_order :=
    match probas with
    | [] => Ok d
    | _ => let! ngrams := get_order d order in
           let! ngrams' := assign_probas ngrams probas in
           Ok (dset Nat.eqb order ngrams' d)
    end.
  (** mkn_smoother.py:128-138 [__call__] *)
  Definition mkn_call (m : mkn) (nb_processes : Z) : res by_order :=
    let! (probas, unis) := calc_unigram_probas m nb_processes in
    let! d := assign_order (k_ngrams (mk_counts m)) 1 probas in
    foldM (fun d order =>
        let! probas := calc_higher_order_probas m unis nb_processes order in
        assign_order d order probas) d (seq 2 (mk_last_order m - 1)).
  Definition mkn_smoother (ngrams : list ngram) (last_order : nat) (nb_processes : Z) : res by_order :=
    let! m := mkn_init ngrams last_order in mkn_call m nb_processes.
End Smoothers.
