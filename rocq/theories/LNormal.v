(** Proofs about the normalization layer. *)
From Coq Require Import Ascii String.
From Coq Require Import List NArith ZArith Arith Bool Lia Permutation.
From Verif Require Import PyBase Regex MUtils MTree MNgram MLangModel MNormal SNormal LBase SUtils LText LRegex.
Import ListNotations.
Local Open Scope nat_scope.

Lemma firstn_app_exact {A} (a b : list A) n : n = length a -> firstn n (a ++ b) = a.
Proof. intros ->. rewrite firstn_app, Nat.sub_diag, firstn_O, app_nil_r. apply firstn_all. Qed.
Lemma slice_last1 {A} (s : list A) c : slice None (Some (-1)%Z) (s ++ [c]) = s.
Proof. change (-1)%Z with (- Z.of_nat 1)%Z. rewrite slice_drop_last by lia. apply firstn_app_exact. rewrite app_length. cbn. lia. Qed.
Lemma slice_last2 {A} (s : list A) c d : slice None (Some (-2)%Z) (s ++ [c; d]) = s.
Proof. change (-2)%Z with (- Z.of_nat 2)%Z. rewrite slice_drop_last by lia. apply firstn_app_exact. rewrite app_length. cbn. lia. Qed.
Lemma index_last {A} (s : list A) c : index (s ++ [c]) (-1) = Ok c.
Proof.
  change (-1)%Z with (- Z.of_nat 1)%Z. rewrite index_neg by lia. rewrite app_length. cbn [length].
  destruct (Nat.ltb_spec (length s + 1) 1); [lia|]. replace (length s + 1 - 1) with (length s) by lia.
  rewrite nth_error_app2 by lia. rewrite Nat.sub_diag. reflexivity.
Qed.
Lemma snoc {A} (s : list A) : s <> [] -> exists r c, s = r ++ [c].
Proof. intros H. destruct (exists_last H) as (r & c & E). eauto. Qed.
Lemma char_in_In c s : char_in c s = true <-> In c s.
Proof. unfold char_in. rewrite existsb_exists. split; [intros (x & H & E); apply N.eqb_eq in E; subst; exact H|intros H; exists c; split; [exact H|apply N.eqb_refl]]. Qed.

Section LM.
  Context (U : udb) (P L : Type) (leL : L -> L -> bool) (zero : P) (ninf : L) (m : lm P L).
  Notation attested x := (lm_contains P L m x = true).
  (** what is used of best_ngram *)
  Definition best_ok : Prop := forall args,
    (forall x, In x args -> lm_contains P L m x = false) /\ best_ngram P L leL zero ninf m args = Ok None \/
    exists x, In x args /\ best_ngram P L leL zero ninf m args = Ok (Some x) /\ attested x.
  Context (BO : best_ok).

  Lemma has_ngram_attested x k : (1 <= k)%Z -> has_ngram P L zero ninf m x k = true -> attested x.
  Proof.
    unfold has_ngram, lookup, lm_contains, dmem. intros Hk. destruct (Z.ltb_spec k 1); [lia|]. destruct (dget _ _ _); [reflexivity|]. cbn. intros H1. apply Z.leb_le in H1. lia.
  Qed.

  (** ** C38: origin of a lemma, for any word *)
  Definition weak (b : str) : Prop :=
    attested b \/ exists x y before, attested (x ++ 32%N :: y) /\ split_ws (u_space U) (x ++ 32%N :: y) = before ++ [b].
  Lemma join2 x y : join (lit " ") [x; y] = x ++ 32%N :: y.
  Proof. reflexivity. Qed.
  Lemma best_candidate_weak st es t b : best_candidate U P L leL zero ninf m st es t = Ok (Some b) -> weak b.
  Proof.
    unfold best_candidate. set (cs := map (fun e => st ++ e) es). set (tb := match t with VERB => verb_contexts | _ => cs end).
    assert (G : (let! best := best_ngram P L leL zero ninf m (flat_map (fun c => map (fun t => join (lit " ") [t; c]) tb) cs) in
      match best with Some b => let! l := index (split_ws (u_space U) b) (-1) in Ok (Some l) | None => best_ngram P L leL zero ninf m cs end) = Ok (Some b) -> weak b).
    { destruct (BO (flat_map (fun c => map (fun t => join (lit " ") [t; c]) tb) cs)) as [[_ ->]|(x & Hx & -> & Ha)]; cbn [rbind].
      - destruct (BO cs) as [[_ ->]|(x & Hx & -> & Ha)]; intros H; [discriminate|]. injection H as <-. left. exact Ha.
      - intros H. apply rbind_Ok in H. destruct H as (l & H1 & H2). injection H2 as <-. right.
        apply in_flat_map in Hx. destruct Hx as (c & _ & Hx). apply in_map_iff in Hx. destruct Hx as (x0 & <- & _). rewrite join2 in *.
        destruct (split_ws (u_space U) (x0 ++ 32%N :: c)) as [|w0 ws] eqn:E; [discriminate H1|]. destruct (snoc (w0 :: ws)) as (r & z & Ez); [discriminate|].
        rewrite Ez in H1. rewrite index_last in H1. injection H1 as ->. exists x0, c, r. rewrite E. auto. }
    destruct es as [|e [|e2 es]]; [exact G| |exact G].
    destruct (has_ngram _ _ _ _ _ _ _) eqn:E; intros H; [|discriminate]. injection H as <-. left. apply (has_ngram_attested _ 1); [lia|exact E].
  Qed.
  Lemma token_prefix_is w ps p b : token_prefix w ps = Some (p, b) -> w = p ++ b /\ is_prefix ps p.
  Proof.
    intros H. split; [eapply token_prefix_concat; exact H|]. destruct (occurs_once_dec 45%N w) as [(x & y & H1 & H2 & H3)|Ho].
    - rewrite (token_prefix_hyphen w ps x y H1 H2 H3) in H. injection H as <- _. right. right. eauto.
    - rewrite token_prefix_other in H by exact Ho. destruct (find _ ps) as [q|] eqn:F; [|discriminate]. injection H as <- _. right. left. apply find_some in F. apply F.
  Qed.
  Context (lx : lexicon).
  Notation lm_lemma := (lm_lemma U P L leL zero ninf m lx).
  Lemma lm_lemma_weak w t st es s l so tl : w = st ++ tl -> lm_lemma w t st es s = Ok (l, so) ->
    (l = w /\ so = None) \/ (so = Some s /\ lemma_origin (u_space U) lx (fun x => attested x) t w l so).
  Proof.
    intros Hw. unfold MNormal.lm_lemma. intros H. apply rbind_Ok in H. destruct H as (best & H1 & H2).
    assert (G : forall p b r, is_prefix (lx_prefixes lx) p -> w = p ++ r -> weak b -> lemma_origin (u_space U) lx (fun x => attested x) t w (p ++ b) (Some s)).
    { intros p b r Hp Hr [Hb|(x & y & before & Hb & E)]; [eapply from_word; eassumption|eapply from_pair; eassumption]. }
    destruct best as [b|].
    - injection H2 as <- <-. right. split; [reflexivity|]. apply (G [] b w); [left; reflexivity|reflexivity|]. eapply best_candidate_weak. exact H1.
    - destruct (token_prefix st (lx_prefixes lx)) as [[p b]|] eqn:E; [|injection H2 as <- <-; left; auto].
      apply token_prefix_is in E. destruct E as [Ep Hp]. apply rbind_Ok in H2. destruct H2 as (best & H2 & H3). destruct best as [b'|]; injection H3 as <- <-; [|left; auto].
      right. split; [reflexivity|]. apply (G p b' (b ++ tl)); [exact Hp|rewrite Hw, Ep, app_assoc; reflexivity|]. eapply best_candidate_weak. exact H2.
  Qed.
  Lemma first_rule_inv rules d r : first_rule rules d = Ok r -> r = d \/ exists rule, In rule rules /\ rule tt = Ok (Some r).
  Proof.
    induction rules as [|f rules IH]; cbn [first_rule]; intros H; [injection H as <-; left; reflexivity|].
    apply rbind_Ok in H. destruct H as (x & H1 & H2). destruct x as [y|]; [injection H2 as <-; right; exists f; split; [left; reflexivity|exact H1]|].
    destruct (IH H2) as [?|(rule & H3 & H4)]; [left; assumption|right; exists rule; split; [right; exact H3|exact H4]].
  Qed.
  (** every rule ends in a call of lm_lemma on a start of the word *)
  Definition from_lm (w : str) (t : tag) (s : suffix) (f : str -> rule_result) (start : str) : Prop := forall r, start <> [] -> f start = Ok (Some r) ->
    exists st es tl, start = st ++ tl /\ lm_lemma w t st es s = Ok r.
  Lemma some_res_inv {A} (r : res A) y : some_res r = Ok (Some y) -> r = Ok y.
  Proof. unfold some_res. intros H. apply rbind_Ok in H. destruct H as (x & H1 & H2). injection H2 as <-. exact H1. Qed.
  Lemma from_plain w t es s start : from_lm w t s (plain U P L leL zero ninf m lx w t es s) start.
  Proof. intros r _ H. apply some_res_inv in H. exists start, es, []. rewrite app_nil_r. auto. Qed.
  Lemma from_after w t es s start : from_lm w t s (after_consonant U P L leL zero ninf m lx w t es s) start.
  Proof. intros r Hs H. unfold after_consonant in H. apply rbind_Ok in H. destruct H as (c & _ & H). destruct c; [|discriminate]. eapply from_plain; [exact Hs|exact H]. Qed.
  Lemma from_last w t es s start : from_lm w t s (last_kept U P L leL zero ninf m lx w t es s) start.
  Proof.
    intros r Hs H. destruct (snoc start Hs) as (q & c & ->). unfold last_kept in H. rewrite index_last in H. cbn [rbind] in H. apply some_res_inv in H. rewrite slice_last1 in H.
    exists q, (map (fun e => c :: e) es), [c]. auto.
  Qed.
  Lemma vdce_inv start es : vowel_double_consonant_endings start = Some es ->
    exists stem v c, start = stem ++ [v; c; c] /\ In v VOWELS /\ In c CONSONANTS /\ es = [[c]; [c; c]].
  Proof.
    unfold vowel_double_consonant_endings. destruct (index start (-3)) as [c3|] eqn:E3; [|discriminate]. destruct (index start (-2)) as [c2|] eqn:E2; [|discriminate].
    destruct (index start (-1)) as [c1|] eqn:E1; [|discriminate]. destruct (char_in c3 VOWELS && char_in c2 CONSONANTS && N.eqb c2 c1) eqn:E; [|discriminate].
    intros H. injection H as <-. apply andb_true_iff in E. destruct E as [E E'']. apply andb_true_iff in E. destruct E as [E E'].
    apply N.eqb_eq in E''. subst c2. apply char_in_In in E. apply char_in_In in E'.
    destruct start as [|a0 st0]; [discriminate|]. destruct (snoc (a0 :: st0)) as (q & x & Eq); [discriminate|]. rewrite Eq in *. clear Eq a0 st0.
    rewrite index_last in E1. injection E1 as ->.
    change (-2)%Z with (- Z.of_nat 2)%Z in E2. change (-3)%Z with (- Z.of_nat 3)%Z in E3. rewrite index_neg in E2, E3 by lia. rewrite app_length in E2, E3. cbn [length] in E2, E3.
    destruct (Nat.ltb_spec (length q + 1) 3) as [|Hl]; [discriminate|]. destruct (Nat.ltb_spec (length q + 1) 2) as [|_]; [discriminate|].
    destruct (snoc q) as (q1 & y & ->); [destruct q; [cbn in Hl; lia|discriminate]|]. rewrite app_length in *. cbn [length] in *.
    rewrite nth_error_app1 in E2, E3 by (rewrite app_length; cbn; lia).
    rewrite nth_error_app2 in E2 by lia. replace (length q1 + 1 + 1 - 2 - length q1) with 0 in E2 by lia. cbn in E2. injection E2 as ->.
    destruct (snoc q1) as (q2 & z & ->); [destruct q1; [cbn in Hl; lia|discriminate]|]. rewrite app_length in *. cbn [length] in *.
    rewrite <- app_assoc in E3. rewrite nth_error_app2 in E3 by lia. replace (length q2 + 1 + 1 + 1 - 3 - length q2) with 0 in E3 by lia. cbn in E3. injection E3 as ->.
    exists q2, c3, c1. split; [rewrite <- !app_assoc; reflexivity|]. auto.
  Qed.
  Lemma from_doubled w t s start : from_lm w t s (doubled U P L leL zero ninf m lx w t s) start.
  Proof.
    intros r Hs H. unfold doubled in H. destruct (vowel_double_consonant_endings start) as [es|] eqn:E; [|discriminate]. apply some_res_inv in H.
    destruct (vdce_inv _ _ E) as (stem & v & c & -> & _ & _ & ->). rewrite (app_assoc stem [v] [c; c] : stem ++ [v; c; c] = (stem ++ [v]) ++ [c; c]) in *. rewrite slice_last2 in H.
    exists (stem ++ [v]), [[c]; [c; c]], [c; c]. auto.
  Qed.
  Lemma on_start_from w t s e n f r : e <> [] -> (forall start, from_lm w t s f start) -> on_start w e n f = Ok (Some r) -> exists st es tl, w = st ++ tl /\ lm_lemma w t st es s = Ok r.
  Proof.
    intros He Hf H. unfold on_start in H. destruct (token_start w e n) as [start|] eqn:E; [|discriminate]. apply token_start_spec in E; [|exact He]. destruct E as (-> & Hs & _).
    destruct (Hf start r Hs H) as (st & es & tl & -> & Hr). exists st, es, (tl ++ e). rewrite <- app_assoc. rewrite <- app_assoc in Hr. auto.
  Qed.
  Lemma from_cond (b : str -> bool) w t s f : (forall start, from_lm w t s f start) -> forall start, from_lm w t s (fun st => if b st then Ok None else f st) start.
  Proof. intros H start r Hs E. destruct (b start); [discriminate|]. exact (H start r Hs E). Qed.

  Definition rules_of (w : str) (t : tag) : list (unit -> rule_result) :=
    match t with
    | ADJ => adj_rules U P L leL zero ninf m lx w
    | VERB => verb_rules U P L leL zero ninf m lx w
    | NOUN => noun_rules U P L leL zero ninf m lx w
    | _ => []
    end.
  Lemma rules_from_lm w t rule r : In rule (rules_of w t) -> rule tt = Ok (Some r) ->
    exists st es tl s, w = st ++ tl /\ lm_lemma w t st es s = Ok r /\ In s (suffixes_of t).
  Proof.
    assert (G : forall t s e n f r, on_start w e n f = Ok (Some r) -> e <> [] -> (forall start, from_lm w t s f start) -> In s (suffixes_of t) ->
      exists st es tl s, w = st ++ tl /\ lm_lemma w t st es s = Ok r /\ In s (suffixes_of t)).
    { intros t0 s e n f r0 H He Hf Hs. destruct (on_start_from _ _ _ _ _ _ _ He Hf H) as (st & es & tl & H1 & H2). exists st, es, tl, s. auto. }
    destruct t; cbn [rules_of]; intros Hin Hr; try solve [destruct Hin].
    all: repeat (destruct Hin as [<-|Hin]; [cbv beta in Hr; eapply G; [exact Hr|discriminate
      |first [apply from_doubled|apply from_after|apply from_last|apply from_plain
            |apply (from_cond (fun _ => str_in w (lx_adjs lx))); apply from_last
            |apply (from_cond (fun _ => endswith w (lit "ss") || has_ngram P L zero ninf m (w ++ lit "es") 1)); apply from_last]
      |cbn; tauto]|]); destruct Hin.
  Qed.
  Lemma lemmatize_rules word t : lemmatize U P L leL zero ninf m lx word t =
    let w := lower U word in
    match full_match w t with
    | Some r => Ok r
    | None =>
      match irregular_lemma lx w t with
      | Some r => Ok r
      | None =>
        match (match token_prefix w (lx_prefixes lx) with
               | Some (p, b) => match irregular_lemma lx b t with Some (l, s) => Some (p ++ l, s) | None => None end
               | None => None end) with
        | Some r => Ok r
        | None => first_rule (rules_of w t) (w, None)
        end
      end
    end.
  Proof. unfold lemmatize. cbv zeta. destruct (full_match _ _); [reflexivity|]. destruct (irregular_lemma lx _ t); [reflexivity|]. destruct (match token_prefix _ _ with Some _ => _ | None => _ end); [reflexivity|]. destruct t; reflexivity. Qed.
  Ltac find_special w G G' E := match goal with H : str_eqb w (lit ?f) = true |- _ =>
    first [ eapply (G f); [exact E|exact H|]; unfold special_forms; cbn [In]; solve [auto 40]
          | eapply (G' f); [exact E|exact H|]; unfold special_forms; cbn [In]; solve [auto 40] ] end.
  Lemma full_match_special w t l s : full_match w t = Some (l, s) -> is_special t w l s.
  Proof.
    assert (G : forall form lemma so, Some (lit lemma, so) = Some (l, s) -> str_eqb w (lit form) = true -> In (t, form, lemma, so) special_forms -> is_special t w l s).
    { intros form lemma so E Hw Hin. injection E as <- <-. apply str_eqb_eq in Hw. exists form, lemma. auto. }
    assert (G' : forall form so, Some (w, so) = Some (l, s) -> str_eqb w (lit form) = true -> In (t, form, form, so) special_forms -> is_special t w l s).
    { intros form so E Hw Hin. apply (G form form so); [|exact Hw|exact Hin]. apply str_eqb_eq in Hw. rewrite <- Hw. exact E. }
    unfold full_match. cbv zeta. destruct t; repeat match goal with |- context [tag_in ?t NOUN_TAGS] => let b := eval vm_compute in (tag_in t NOUN_TAGS) in change (tag_in t NOUN_TAGS) with b; cbv iota end; try discriminate.
    all: repeat match goal with |- (if ?b then _ else _) = Some _ -> _ => destruct b eqn:? end; rewrite ?orb_true_iff in *; intros E; try discriminate E;
      repeat match goal with H : _ \/ _ |- _ => destruct H as [H|H] end.
    - find_special w G G' E.
    - find_special w G G' E.
    - find_special w G G' E.
    - find_special w G G' E.
    - find_special w G G' E.
    - find_special w G G' E.
    - find_special w G G' E.
    - find_special w G G' E.
    - find_special w G G' E.
    - find_special w G G' E.
    - find_special w G G' E.
    - find_special w G G' E.
    - find_special w G G' E.
    - find_special w G G' E.
    - find_special w G G' E.
    - find_special w G G' E.
    - find_special w G G' E.
    - find_special w G G' E.
    - find_special w G G' E.
    - find_special w G G' E.
    - find_special w G G' E.
    - find_special w G G' E.
    - find_special w G G' E.
    - find_special w G G' E.
    - find_special w G G' E.
  Qed.
  Lemma irregular_is w t l s : irregular_lemma lx w t = Some (l, s) -> is_irregular lx t w l s.
  Proof.
    unfold irregular_lemma, is_irregular. cbv zeta. destruct t; try discriminate;
    repeat match goal with |- context [dget str_eqb w ?d] => destruct (dget str_eqb w d) eqn:? end; intros E; cbv iota beta in E; try discriminate; injection E as <- <-;
      repeat match goal with H : dget _ _ _ = Some _ |- _ => apply (dget_In _ str_eqb_ok) in H end; tauto.
  Qed.
  Theorem lemmatize_origin word t l s : lemmatize U P L leL zero ninf m lx word t = Ok (l, s) ->
    lemma_origin (u_space U) lx (fun x => attested x) t (lower U word) l s /\ (forall s', s = Some s' -> In s' (suffixes_of t)).
  Proof.
    rewrite lemmatize_rules. cbv zeta. set (w := lower U word). destruct (full_match w t) as [[l' s']|] eqn:E1.
    { intros H. injection H as -> ->. apply full_match_special in E1. split; [apply from_special; exact E1|].
      intros s' ->. destruct E1 as (f & lm & Hin & _). clear - Hin. cbn in Hin. repeat (destruct Hin as [Hin|Hin]; [first [discriminate Hin|injection Hin as <- _ _ <-; cbn; tauto]|]). destruct Hin. }
    assert (Hirr : forall w l s, irregular_lemma lx w t = Some (l, s) -> forall s', s = Some s' -> In s' (suffixes_of t)).
    { intros w0 l0 s0 H s' ->. apply irregular_is in H. destruct H as [(-> & _ & E)|[(-> & _ & E)|[(-> & _ & E)|(-> & _ & E)]]]; injection E as ->; cbn; tauto. }
    destruct (irregular_lemma lx w t) as [[l' s']|] eqn:E2.
    { intros H. injection H as -> ->. split; [|eapply Hirr; exact E2]. apply irregular_is in E2. apply (from_table _ _ _ _ _ [] w); [left; reflexivity|reflexivity|exact E2]. }
    destruct (match token_prefix w (lx_prefixes lx) with Some _ => _ | None => _ end) as [[l' s']|] eqn:E3.
    { intros H. injection H as -> ->. destruct (token_prefix w (lx_prefixes lx)) as [[p b]|] eqn:E; [|discriminate]. destruct (irregular_lemma lx b t) as [[l' s']|] eqn:E4; [|discriminate].
      injection E3 as <- ->. split; [|eapply Hirr; exact E4]. apply token_prefix_is in E. destruct E as [Ew Hp]. eapply from_table; [exact Hp|exact Ew|]. apply irregular_is. exact E4. }
    intros H. apply first_rule_inv in H. destruct H as [H|(rule & Hin & Hr)].
    - injection H as -> ->. split; [apply unchanged|discriminate].
    - destruct (rules_from_lm _ _ _ _ Hin Hr) as (st & es & tl & s0 & Hw & Hl & Hs). destruct (lm_lemma_weak _ _ _ _ _ _ _ _ Hw Hl) as [[-> ->]|[-> Ho]]; [split; [apply unchanged|discriminate]|].
      split; [exact Ho|]. intros s' E. injection E as <-. exact Hs.
  Qed.
End LM.
