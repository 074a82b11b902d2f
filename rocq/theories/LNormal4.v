(** Proofs about the normalization layer: which inflections the lemmatizer undoes. Words are read from the end. *)
From Coq Require Import Ascii String.
From Coq Require Import List NArith ZArith Arith Bool Lia Permutation.
From Verif Require Import PyBase Regex MUtils MTree MNgram MLangModel MNormal SNormal SLangModel LBase SUtils LText LRegex LLangModel LNormal LNormal2.
Import ListNotations.
Local Open Scope nat_scope.

Lemma snoc_rev {A} (x : list A) c : rev (c :: x) = rev x ++ [c].
Proof. reflexivity. Qed.
Lemma as_rev {A} (s : list A) : exists x, s = rev x.
Proof. exists (rev s). symmetry. apply rev_involutive. Qed.
Lemma rev_inj {A} (a b : list A) : rev a = rev b -> a = b.
Proof. intros H. rewrite <- (rev_involutive a), H. apply rev_involutive. Qed.
Lemma vdce_some stem v c : In v VOWELS -> In c CONSONANTS -> vowel_double_consonant_endings (stem ++ [v; c; c]) = Some [[c]; [c; c]].
Proof.
  intros Hv Hc. unfold vowel_double_consonant_endings.
  assert (E3 : index (stem ++ [v; c; c]) (-3) = Ok v).
  { change (-3)%Z with (- Z.of_nat 3)%Z. rewrite index_neg by lia. rewrite app_length. cbn [length]. destruct (Nat.ltb_spec (length stem + 3) 3); [lia|]. rewrite nth_error_app2 by lia. replace (length stem + 3 - 3 - length stem) with 0 by lia. reflexivity. }
  assert (E2 : index (stem ++ [v; c; c]) (-2) = Ok c).
  { change (-2)%Z with (- Z.of_nat 2)%Z. rewrite index_neg by lia. rewrite app_length. cbn [length]. destruct (Nat.ltb_spec (length stem + 3) 2); [lia|]. rewrite nth_error_app2 by lia. replace (length stem + 3 - 2 - length stem) with 1 by lia. reflexivity. }
  assert (E1 : index (stem ++ [v; c; c]) (-1) = Ok c).
  { change (-1)%Z with (- Z.of_nat 1)%Z. rewrite index_neg by lia. rewrite app_length. cbn [length]. destruct (Nat.ltb_spec (length stem + 3) 1); [lia|]. rewrite nth_error_app2 by lia. replace (length stem + 3 - 1 - length stem) with 2 by lia. reflexivity. }
  rewrite E3, E2, E1. apply char_in_In in Hv. apply char_in_In in Hc. rewrite Hv, Hc, N.eqb_refl. reflexivity.
Qed.

Section Rules.
  Context (U : udb) (P L : Type) (leL : L -> L -> bool) (zero : P) (ninf : L) (m : lm P L) (lx : lexicon) (w : str) (t : tag).
  Notation lm_lemma := (lm_lemma U P L leL zero ninf m lx w t).
  Lemma first_some (r : unit -> rule_result) rules d y : r tt = some_res y -> first_rule (r :: rules) d = y.
  Proof. intros E. cbn [first_rule]. rewrite E. destruct y; reflexivity. Qed.
  Lemma first_none (r : unit -> rule_result) rules d : r tt = Ok None -> first_rule (r :: rules) d = first_rule rules d.
  Proof. intros E. cbn [first_rule]. rewrite E. reflexivity. Qed.
  Lemma start_rev e n : e <> [] -> 1 <= n ->
    (exists x, n <= length x /\ rev w = rev e ++ x /\ token_start w e n = Some (rev x)) \/
    (forall x, n <= length x -> rev w <> rev e ++ x) /\ token_start w e n = None.
  Proof.
    intros He Hn. destruct (token_start w e n) as [s|] eqn:E.
    - left. apply token_start_spec in E; [|exact He]. destruct E as (-> & Hs & Hl). exists (rev s). rewrite rev_length, rev_involutive, rev_app_distr. auto.
    - right. split; [|reflexivity]. intros x Hx Ew. assert (token_start w e n = Some (rev x)); [|congruence]. apply token_start_spec; [exact He|]. rewrite rev_length. split; [|split; [|exact Hx]].
      + apply rev_inj. rewrite rev_app_distr, rev_involutive. exact Ew.
      + destruct x; [cbn in Hx; lia|]. cbn. destruct (rev x); discriminate.
  Qed.
  Lemma rule_after e n es s : e <> [] -> 1 <= n ->
    (exists x c, consonant c /\ n <= S (length x) /\ rev w = rev e ++ c :: x /\ on_start w e n (after_consonant U P L leL zero ninf m lx w t es s) = some_res (lm_lemma (rev (c :: x)) es s)) \/
    (forall x c, consonant c -> n <= S (length x) -> rev w <> rev e ++ c :: x) /\ on_start w e n (after_consonant U P L leL zero ninf m lx w t es s) = Ok None.
  Proof.
    intros He Hn. unfold on_start. destruct (start_rev e n He Hn) as [(x & Hl & Ew & ->)|[Hno ->]].
    - destruct x as [|c x]; [cbn in Hl; lia|]. cbn [length] in Hl. assert (EC : ends_with_consonant (rev (c :: x)) = Ok (char_in c CONSONANTS)) by (unfold ends_with_consonant; rewrite snoc_rev, index_last; reflexivity). unfold after_consonant. rewrite EC. cbn [rbind].
      destruct (char_in c CONSONANTS) eqn:Ec.
      + left. exists x, c. apply char_in_In in Ec. auto.
      + right. split; [|reflexivity]. intros x' c' Hc' _ Ew'. rewrite Ew in Ew'. apply app_inv_head in Ew'. injection Ew' as <- <-. apply char_in_In in Hc'. unfold CONSONANTS in *. congruence.
    - right. split; [|reflexivity]. intros x c _ Hl. apply (Hno (c :: x)). exact Hl.
  Qed.
  Lemma rule_doubled e s : e <> [] ->
    (exists x v c, x <> [] /\ vowel v /\ consonant c /\ rev w = rev e ++ c :: c :: v :: x /\ on_start w e 4 (doubled U P L leL zero ninf m lx w t s) = some_res (lm_lemma (rev (v :: x)) [[c]; [c; c]] s)) \/
    (forall x v c, x <> [] -> vowel v -> consonant c -> rev w <> rev e ++ c :: c :: v :: x) /\ on_start w e 4 (doubled U P L leL zero ninf m lx w t s) = Ok None.
  Proof.
    intros He. unfold on_start. destruct (start_rev e 4 He ltac:(lia)) as [(x & Hl & Ew & ->)|[Hno ->]].
    - unfold doubled. destruct (vowel_double_consonant_endings (rev x)) as [es|] eqn:E.
      + left. destruct (vdce_inv _ _ E) as (stem & v & c & Est & Hv & Hc & ->). exists (rev stem), v, c. apply (f_equal (@rev _)) in Est. rewrite rev_involutive, rev_app_distr in Est. cbn [rev app] in Est.
        split; [intros F; rewrite F in Est; subst x; cbn in Hl; lia|]. split; [exact Hv|]. split; [exact Hc|]. split; [rewrite Ew, Est; reflexivity|].
        rewrite Est. change (rev (c :: c :: v :: rev stem)) with (((rev (rev stem) ++ [v]) ++ [c]) ++ [c]). rewrite <- (app_assoc (rev (rev stem) ++ [v])). cbn [app]. rewrite slice_last2. reflexivity.
      + right. split; [|reflexivity]. intros x' v c Hx Hv Hc Ew'. rewrite Ew in Ew'. apply app_inv_head in Ew'. subst x. change (rev (c :: c :: v :: x')) with (((rev x' ++ [v]) ++ [c]) ++ [c]) in E. rewrite <- !app_assoc in E. cbn [app] in E. rewrite vdce_some in E by assumption. discriminate.
    - right. split; [|reflexivity]. intros x v c Hx _ _. apply (Hno (c :: c :: v :: x)). destruct x; [congruence|]. cbn. lia.
  Qed.
  Lemma rule_last e n es s : e <> [] -> 1 <= n ->
    (exists x c, n <= S (length x) /\ rev w = rev e ++ c :: x /\ on_start w e n (last_kept U P L leL zero ninf m lx w t es s) = some_res (lm_lemma (rev x) (map (cons c) es) s)) \/
    (forall x c, n <= S (length x) -> rev w <> rev e ++ c :: x) /\ on_start w e n (last_kept U P L leL zero ninf m lx w t es s) = Ok None.
  Proof.
    intros He Hn. unfold on_start. destruct (start_rev e n He Hn) as [(x & Hl & Ew & ->)|[Hno ->]].
    - left. destruct x as [|c x]; [cbn in Hl; lia|]. exists x, c. split; [exact Hl|]. split; [exact Ew|]. unfold last_kept. rewrite (snoc_rev x c). rewrite index_last. cbn [rbind]. rewrite slice_last1. reflexivity.
    - right. split; [|reflexivity]. intros x c Hl. apply (Hno (c :: x)). exact Hl.
  Qed.
  Lemma rule_plain e n es s : e <> [] -> 1 <= n ->
    (exists x, n <= length x /\ rev w = rev e ++ x /\ on_start w e n (plain U P L leL zero ninf m lx w t es s) = some_res (lm_lemma (rev x) es s)) \/
    (forall x, n <= length x -> rev w <> rev e ++ x) /\ on_start w e n (plain U P L leL zero ninf m lx w t es s) = Ok None.
  Proof.
    intros He Hn. unfold on_start. destruct (start_rev e n He Hn) as [(x & Hl & Ew & ->)|[Hno ->]].
    - left. exists x. auto.
    - right. auto.
  Qed.
  Lemma rule_if (b : bool) e n f : on_start w e n (fun start => if b then Ok None else f start) = if b then Ok None else on_start w e n f.
  Proof. unfold on_start. destruct (token_start w e n), b; reflexivity. Qed.
End Rules.
