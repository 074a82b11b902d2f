(** Proofs about the normalization layer: a regular form whose lemma alone is known is undone, unless it is hidden. *)
From Coq Require Import Ascii String.
From Coq Require Import List NArith ZArith Arith Bool Lia Permutation.
From Verif Require Import PyBase Regex MUtils MTree MNgram MLangModel MNormal SNormal SLangModel LBase SUtils LText LRegex LLangModel LNormal LNormal2 LNormal4 LNormal5 LNormal6.
Import ListNotations.
Local Open Scope nat_scope.

Lemma app_compare {A} (a b c d : list A) : a ++ b = c ++ d -> length a <= length c -> exists k, c = a ++ k /\ b = k ++ d.
Proof.
  revert c. induction a as [|x a IH]; intros c E H; [exists c; auto|]. destruct c as [|y c]; [cbn in H; lia|]. cbn in E, H. injection E as -> E. destruct (IH c E ltac:(lia)) as (k & -> & ->). exists k. auto.
Qed.

Section Undone.
  Context (U : udb) (OK : udb_ok U) (P L : Type) (leL : L -> L -> bool) (zero : P) (ninf : L) (m : lm P L).
  Notation attested x := (lm_contains P L m x = true).
  Notation known x := (has_ngram P L zero ninf m x 1 = true).
  Notation unheard := (unheard (fun x => attested x)).
  Context (BO : best_ok P L leL zero ninf m) (lx : lexicon) (HP : Permutation PREFIXES (lx_prefixes lx)).
  Notation nospace := (nospace U).
  Lemma low_char c : (97 <= c <= 122)%N -> u_space U c = false.
  Proof.
    intros Hc. rewrite (ok_space _ OK) by lia. unfold ascii_space.
    assert (H0 : forall k, (k < 97)%N -> N.eqb c k = false) by (intros k Hk; apply N.eqb_neq; lia).
    rewrite ?H0 by lia. repeat match goal with |- context [(?a <=? ?b)%N] => destruct (N.leb_spec a b); try lia end; cbn; reflexivity.
  Qed.
  Lemma best_only st es t e0 : nospace st -> Forall (fun e => e <> [] /\ nospace e) es -> In e0 es ->
    (forall e, In e es -> st ++ e <> st ++ e0 -> unheard (st ++ e)) ->
    exists o, best_candidate U P L leL zero ninf m st es t = Ok o /\ (o = None \/ o = Some (st ++ e0)) /\ (known (st ++ e0) -> o = Some (st ++ e0)).
  Proof.
    intros Hst Hes He0 Hu. destruct (best_candidate_strong U OK P L leL zero ninf m BO st es t Hst Hes) as (o & E & Ho). exists o. split; [exact E|].
    assert (A : o = None \/ o = Some (st ++ e0)).
    { destruct o as [b|]; [right|left; reflexivity]. destruct (Ho b eq_refl) as (e & He & -> & Ha). f_equal. destruct (list_eq_dec N.eq_dec (st ++ e) (st ++ e0)) as [|Hn]; [assumption|exfalso].
      destruct (Hu e He Hn) as [U1 U2]. destruct Ha as [Ha|(x & Ha & _)]; [exact (U1 Ha)|exact (U2 _ Ha)]. }
    split; [exact A|]. intros Hk. destruct A as [->|A]; [|exact A]. exfalso. pose proof (has_ngram_attested P L zero ninf m _ 1%Z ltac:(lia) Hk) as Ha. unfold best_candidate in E. destruct es as [|e [|e2 es]].
    - destruct He0.
    - destruct He0 as [->|[]]. rewrite Hk in E. discriminate.
    - match type of E with (let! _ := best_ngram _ _ _ _ _ _ ?args in _) = _ => destruct (BO args) as [[_ B]|(x & Hx & B & _)]; rewrite B in E; cbn [rbind] in E end.
      + match type of E with best_ngram _ _ _ _ _ _ ?args = _ => destruct (BO args) as [[F _]|(x & _ & B' & _)]; [|congruence]; specialize (F (st ++ e0) (in_map _ _ _ He0)) end. congruence.
      + destruct (index _ _); discriminate.
  Qed.
  Lemma prefix_read w st tl p b : w = st ++ tl -> reads_prefix w p -> st = p ++ b -> token_prefix st (lx_prefixes lx) = Some (p, b).
  Proof.
    intros Ew Hr Es. destruct Hr as [[Hh (pw & Hp & Epw)]|(a & r & Er & Ha & Hb & Ep)].
    - assert (Hp' : In p PREFIXES) by (rewrite Epw; apply (in_map lit) in Hp; exact Hp). clear Hp. rename Hp' into Hp. rewrite (token_prefix_order _ _ HP). rewrite token_prefix_other.
      + destruct (find (fun p0 => startswith st p0) PREFIXES) as [q|] eqn:F.
        * apply find_some in F. destruct F as [Fq F]. pose proof F as F'. apply startswith_iff in F'. destruct F' as (r & Eq). assert (q = p) as ->.
          { rewrite Es in Eq. destruct (prefix_compare (p ++ b) q p r b Eq eq_refl) as [H|H]; [symmetry|]; apply PREFIXES_free; assumption. }
          rewrite Es, skipn_app, skipn_all, Nat.sub_diag. reflexivity.
        * exfalso. pose proof (find_none _ _ F p Hp) as G. cbv beta in G. assert (startswith st p = true) by (apply startswith_iff; eauto). congruence.
      + intros (x & y & E & _). apply Hh. rewrite Ew, E. apply in_or_app. left. apply in_elt.
    - rewrite Ep in *. apply token_prefix_hyphen; [rewrite Es, <- app_assoc; reflexivity|exact Ha|]. intros F. rewrite Es, <- !app_assoc in Ew. rewrite Er in Ew. apply app_inv_head in Ew. injection Ew as ->. apply Hb. apply in_or_app. left. exact F.
  Qed.
  Lemma lm_only w t st tl es s e0 : nospace st -> w = st ++ tl -> Forall (fun e => e <> [] /\ nospace e) es -> Forall (fun e => length e <= 3) es -> In e0 es ->
    (forall e p b, In e es -> st ++ e <> st ++ e0 -> is_prefix (lx_prefixes lx) p -> st ++ e = p ++ b -> unheard b) ->
    known (st ++ e0) \/ (exists p b, reads_prefix w p /\ st ++ e0 = p ++ b /\ 3 <= length b /\ known b) ->
    lm_lemma U P L leL zero ninf m lx w t st es s = Ok (st ++ e0, Some s).
  Proof.
    intros Hst Ew Hes Hlen He0 Hu Hk. unfold lm_lemma. destruct (best_only st es t e0 Hst Hes He0) as (o & -> & Ho & Hk1).
    { intros e He Hn. apply (Hu e [] (st ++ e) He Hn); [left; reflexivity|reflexivity]. }
    cbn [rbind]. destruct Ho as [->| ->]; [|reflexivity]. destruct Hk as [Hk|(p & b & Hp & Eb & Hb & Hk)]; [specialize (Hk1 Hk); discriminate|].
    pose proof (proj1 (Forall_forall _ _) Hlen e0 He0) as Hl0. cbv beta in Hl0.
    assert (Hlp : length p <= length st) by (apply (f_equal (@length _)) in Eb; rewrite !app_length in Eb; lia).
    destruct (app_compare p b st e0 (eq_sym Eb) Hlp) as (k & Es & Ek). rewrite (prefix_read w st tl p k Ew Hp Es). pose proof (prefix_read w st tl p k Ew Hp Es) as TP. apply token_prefix_is in TP. destruct TP as [_ Hip].
    subst st. apply nospace_app in Hst. destruct Hst as [_ Hk'].
    destruct (best_only k es t e0 Hk' Hes He0) as (o & -> & Ho & Hk2).
    { intros e He Hn. apply (Hu e p (k ++ e) He); [|exact Hip|rewrite <- app_assoc; reflexivity]. rewrite <- !app_assoc. intros F. apply app_inv_head in F. exact (Hn F). }
    rewrite Ek in Hk. rewrite (Hk2 Hk). cbn [rbind]. rewrite <- app_assoc. reflexivity.
  Qed.
  Lemma lm_not w t st es s l s' : nospace st -> Forall (fun e => e <> [] /\ nospace e) es -> (forall e, In e es -> l <> st ++ e) ->
    lm_lemma U P L leL zero ninf m lx w t st es s <> Ok (l, Some s').
  Proof.
    intros Hst Hes Hn E. destruct (lm_lemma_strong U OK P L leL zero ninf m BO lx w t st es s Hst Hes) as (r & E' & [->|(e & He & -> & _)]); rewrite E' in E; [discriminate|]. injection E as <- _. exact (Hn e He eq_refl).
  Qed.
  (** no special form, no entry of a table *)
  Definition not_listed (t : tag) (w : str) : Prop :=
    full_match w t = None /\ irregular_lemma lx w t = None /\ (forall p b, token_prefix w (lx_prefixes lx) = Some (p, b) -> irregular_lemma lx b t = None).
  Lemma lemmatize_not_listed word t : not_listed t (lower U word) -> lemmatize U P L leL zero ninf m lx word t = first_rule (rules_of U P L leL zero ninf m lx (lower U word) t) (lower U word, None).
  Proof.
    intros (H1 & H2 & H3). rewrite lemmatize_rules. cbv zeta. rewrite H1, H2. destruct (token_prefix _ _) as [[p b]|] eqn:E; [rewrite (H3 p b eq_refl)|]; reflexivity.
  Qed.
  Theorem undone word t l s : nospace word -> let w := lower U word in not_listed t w -> inflected t w l s ->
    known l \/ (exists p b, reads_prefix w p /\ l = p ++ b /\ 3 <= length b /\ known b) ->
    (forall l' s' p b, inflected t w l' s' -> l' <> l -> is_prefix (lx_prefixes lx) p -> l' = p ++ b -> unheard b) ->
    (lemmatize U P L leL zero ninf m lx word t = Ok (l, Some s) <-> ~ hidden (fun x => known x) (lx_adjs lx) t w l).
  Proof.
    intros Hns w Hnl HI Hk Hu. rewrite (lemmatize_not_listed word t Hnl). fold w. apply (lower_nospace U OK) in Hns. fold w in Hns.
    assert (R : reading U P L leL zero ninf m lx w t s (rev l) (first_rule (rules_of U P L leL zero ninf m lx w t) (w, None))).
    { pose proof (inflected_rev _ _ _ _ HI) as HR. destruct t; cbn [rules_of]; try (exfalso; destruct HR as [y n old new s H _ _|y d n old new s H _ _ _|y u d old s H _ _ _]; cbn in H; intuition congruence).
      - apply adj_reading. exact HR.
      - apply noun_reading. exact HR.
      - apply verb_reading. exact HR. }
    rewrite hidden_rev.
    assert (GE : forall es, good_endings w es -> Forall (fun e => e <> [] /\ nospace e) es).
    { intros es. apply Forall_impl. intros e (H1 & _ & H3). split; [exact H1|]. revert H3. apply Forall_impl. intros a [Ha|Ha]; [exact (proj1 (Forall_forall _ _) Hns a Ha)|].
      apply low_char. exact Ha. }
    destruct R as [(x & tl & es & E & Ew & Hg & (e0 & He0 & El) & Hri & Hn)|(Hh & Hr)].
    - split; [intros _; exact Hn|intros _]. rewrite E. assert (Ell : l = rev x ++ e0) by (apply rev_inj; rewrite El, rev_app_distr, rev_involutive; reflexivity).
      assert (Eww : w = rev x ++ rev tl) by (apply rev_inj; rewrite Ew, rev_app_distr, !rev_involutive; reflexivity).
      rewrite Ell in *. eapply lm_only; [| exact Eww|apply GE; exact Hg|revert Hg; apply Forall_impl; tauto|exact He0| |exact Hk].
      + rewrite Eww in Hns. apply nospace_app in Hns. apply Hns.
      + intros e p b He Hne Hp Eb. apply (Hu (rev x ++ e) s p b); [|exact Hne|exact Hp|exact Eb]. apply rinflected_rev. rewrite rev_app_distr, rev_involutive. apply Hri. exact He.
    - split; [|intros F; exfalso; exact (F Hh)]. intros E. exfalso. destruct Hr as [Er|(x & tl & es & s' & Er & Ew & Hg & Hn)]; rewrite Er in E; [discriminate|]. revert E.
      assert (Eww : w = rev x ++ rev tl) by (apply rev_inj; rewrite Ew, rev_app_distr, !rev_involutive; reflexivity).
      apply lm_not; [rewrite Eww in Hns; apply nospace_app in Hns; apply Hns|apply GE; exact Hg|]. intros e He ->. apply (Hn e He). rewrite rev_app_distr, rev_involutive. reflexivity.
  Qed.
End Undone.
