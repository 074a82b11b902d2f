(** Proofs about the normalization layer: the reading of a regular form, by its first rule that applies. *)
From Coq Require Import Ascii String.
From Coq Require Import List NArith ZArith Arith Bool Lia Permutation.
From Verif Require Import PyBase Regex MUtils MTree MNgram MLangModel MNormal SNormal SLangModel LBase SUtils LText LRegex LLangModel LNormal LNormal2 LNormal4.
Import ListNotations.
Local Open Scope nat_scope.

(** inflections and hidden inflections, read from the end *)
Inductive rinflected (t : tag) (r : str) : str -> suffix -> Prop :=
| ri_plain x n old new s : In (t, n, old, new, s) inflections -> n <= length x -> r = rev (lit old) ++ x -> rinflected t r (rev (lit new) ++ x) s
| ri_consonant x c n old new s : In (t, n, old, new, s) consonant_inflections -> consonant c -> n <= S (length x) -> r = rev (lit old) ++ c :: x -> rinflected t r (rev (lit new) ++ c :: x) s
| ri_doubled x v c old s : In (t, old, s) doubling -> vowel v -> consonant c -> r = rev (lit old) ++ c :: c :: v :: x -> rinflected t r (c :: v :: x) s.
Lemma inflected_rev t w l s : inflected t w l s -> rinflected t (rev w) (rev l) s.
Proof.
  intros H. destruct H as [stem n old new s H Hn ->|stem c n old new s H Hc Hn ->|stem v c old s H Hv Hc ->]; rewrite !rev_app_distr.
  - eapply ri_plain; [exact H|rewrite rev_length; exact Hn|reflexivity].
  - cbn [rev app]. eapply ri_consonant; [exact H|exact Hc|rewrite rev_length; rewrite app_length in Hn; cbn in Hn; lia|reflexivity].
  - cbn [rev app]. eapply ri_doubled; [exact H|exact Hv|exact Hc|]. rewrite <- !app_assoc. reflexivity.
Qed.
Lemma rinflected_rev t w l s : rinflected t (rev w) (rev l) s -> inflected t w l s.
Proof.
  intros H. remember (rev l) as rl eqn:El. destruct H as [x n old new s H Hn Er|x c n old new s H Hc Hn Er|x v c old s H Hv Hc Er]; apply (f_equal (@rev _)) in Er; apply (f_equal (@rev _)) in El; rewrite rev_involutive in Er, El; subst w l; rewrite ?rev_app_distr, ?rev_involutive.
  - eapply inflected_plain; [exact H|rewrite rev_length; exact Hn|reflexivity].
  - cbn [rev]. eapply inflected_consonant; [exact H|exact Hc|rewrite app_length, rev_length; cbn [length]; unfold str, char in *; lia|reflexivity].
  - cbn [rev]. rewrite <- !app_assoc. cbn [app]. eapply inflected_doubled; [exact H|exact Hv|exact Hc|reflexivity].
Qed.
Inductive rhidden (ks : Prop) (ka : Prop) (t : tag) (r rl : str) : Prop :=
| rh_ending n old news x c : In (t, n, old, news) only_lemmas -> consonant c -> n <= S (length x) -> r = rev (lit old) ++ c :: x ->
    (forall new, In new news -> rl <> rev (lit new) ++ c :: x) -> rhidden ks ka t r rl
| rh_ves x : t = NOUN -> 2 <= length x -> r = [115; 101; 118]%N ++ x ->
    (forall new, In new ["f"; "fe"; "ve"]%string -> rl <> rev (lit new) ++ x) -> rhidden ks ka t r rl
| rh_doubled x v c old s : In (t, old, s) doubling -> x <> [] -> vowel v -> consonant c -> r = rev (lit old) ++ c :: c :: v :: x ->
    rl = 101%N :: c :: c :: v :: x -> rhidden ks ka t r rl
| rh_short v c old s : In (t, old, s) doubling -> vowel v -> consonant c -> r = rev (lit old) ++ [c; c; v] -> rl = [c; v] -> rhidden ks ka t r rl
| rh_adj x : t = ADJ -> r = [114; 101]%N ++ x -> ka -> (rl = x \/ rl = 101%N :: x) ->
    (forall y v c, y <> [] -> vowel v -> consonant c -> x <> c :: c :: v :: y) -> rhidden ks ka t r rl
| rh_s : t = NOUN -> r = 115%N :: rl -> (forall x, rl = 101%N :: x -> length x < 2) -> (exists x, rl = 115%N :: x) \/ ks -> rhidden ks ka t r rl.
Lemma rev_ne {A} (a b : list A) : a <> b -> rev a <> rev b.
Proof. intros H E. apply H, rev_inj, E. Qed.
Lemma hidden_rev known adjs t w l : hidden known adjs t w l <-> rhidden (known (w ++ lit "es")) (In w adjs) t (rev w) (rev l).
Proof.
  split; intros H.
  - destruct H as [n old news stem c H Hc Hn Ew Hl|stem Ht Hn Ew Hl|stem v c old s H Hs Hv Hc Ew El|v c old s H Hv Hc Ew El|stem Ht Ew Ha Hl Hd|Ht Ew Hx Hk].
    + rewrite Ew, !rev_app_distr. cbn [rev app]. eapply rh_ending; [exact H|exact Hc| |reflexivity|].
      * rewrite rev_length. rewrite app_length in Hn. cbn in Hn. lia.
      * intros new Hin E. apply (Hl new Hin). apply rev_inj. rewrite E, !rev_app_distr. reflexivity.
    + rewrite Ew, rev_app_distr. apply (rh_ves _ _ _ _ _ (rev stem)); [exact Ht|rewrite rev_length; exact Hn|reflexivity|].
      intros new Hin E. apply (Hl new Hin). apply rev_inj. rewrite E, !rev_app_distr. reflexivity.
    + rewrite Ew, El, !rev_app_distr. cbn [rev app]. rewrite <- !app_assoc. eapply (rh_doubled _ _ _ _ _ (rev stem)); [exact H| |exact Hv|exact Hc|reflexivity|reflexivity].
      intros F. apply Hs. apply rev_inj. exact F.
    + rewrite Ew, El, !rev_app_distr. eapply rh_short; [exact H|exact Hv|exact Hc|reflexivity|reflexivity].
    + rewrite Ew, !rev_app_distr. apply (rh_adj _ _ _ _ _ (rev stem)); [exact Ht|reflexivity|rewrite <- Ew; exact Ha| |].
      * destruct Hl as [->| ->]; [left; reflexivity|right]. rewrite rev_app_distr. reflexivity.
      * intros y v c Hy Hv Hc E. apply (Hd (rev y) v c); [intros F; apply Hy, rev_inj; exact F|exact Hv|exact Hc|]. apply rev_inj. rewrite E, rev_app_distr, rev_involutive. reflexivity.
    + apply rh_s; [exact Ht|rewrite Ew, rev_app_distr; reflexivity| |].
      * intros x E. rewrite <- rev_length. apply Hx. apply rev_inj. rewrite E, rev_app_distr, rev_involutive. reflexivity.
      * destruct Hk as [(x & ->)|Hk]; [left; exists (rev x); rewrite rev_app_distr; reflexivity|right; exact Hk].
  - destruct H as [n old news x c H Hc Hn Ew Hl|x Ht Hn Ew Hl|x v c old s H Hs Hv Hc Ew El|v c old s H Hv Hc Ew El|x Ht Ew Ha Hl Hd|Ht Ew Hx Hk].
    + apply (hidden_ending _ _ _ _ _ n old news (rev x) c H Hc).
      * rewrite app_length, rev_length. cbn. lia.
      * apply rev_inj. rewrite Ew, !rev_app_distr, rev_involutive. reflexivity.
      * intros new Hin ->. apply (Hl new Hin). rewrite !rev_app_distr, rev_involutive. reflexivity.
    + apply (hidden_ves _ _ _ _ _ (rev x) Ht); [rewrite rev_length; exact Hn|apply rev_inj; rewrite Ew, rev_app_distr, rev_involutive; reflexivity|].
      intros new Hin ->. apply (Hl new Hin). rewrite !rev_app_distr, rev_involutive. reflexivity.
    + apply (hidden_doubled _ _ _ _ _ (rev x) v c old s H); [intros F; apply Hs, rev_inj; exact F|exact Hv|exact Hc| |]; apply rev_inj; [rewrite Ew|rewrite El]; rewrite !rev_app_distr, rev_involutive; cbn [rev app]; rewrite <- ?app_assoc; reflexivity.
    + apply (hidden_short _ _ _ _ _ v c old s H Hv Hc); apply rev_inj; [rewrite Ew|rewrite El]; rewrite ?rev_app_distr; reflexivity.
    + apply (hidden_adj _ _ _ _ _ (rev x) Ht); [apply rev_inj; rewrite Ew, rev_app_distr, rev_involutive; reflexivity|exact Ha| |].
      * destruct Hl as [E|E]; [left|right]; apply rev_inj; rewrite E, ?rev_app_distr, rev_involutive; reflexivity.
      * intros y v c Hy Hv Hc E. apply (Hd (rev y) v c); [intros F; apply Hy, rev_inj; exact F|exact Hv|exact Hc|]. apply rev_inj. rewrite E. cbn [rev]. rewrite rev_involutive, <- !app_assoc. reflexivity.
    + apply hidden_s; [exact Ht|apply rev_inj; rewrite Ew, rev_app_distr; reflexivity| |].
      * intros x ->. rewrite rev_app_distr in Hx. rewrite <- rev_length. apply Hx. reflexivity.
      * destruct Hk as [(x & E)|Hk]; [left; exists (rev x); apply rev_inj; rewrite E, rev_app_distr, rev_involutive; reflexivity|right; exact Hk].
Qed.
Lemma consonant_b c : consonant c -> char_in c CONSONANTS = true.
Proof. intros H. apply char_in_In. exact H. Qed.
Lemma vowel_b c : vowel c -> char_in c VOWELS = true.
Proof. intros H. apply char_in_In. exact H. Qed.

Section Readings.
  Context (U : udb) (P L : Type) (leL : L -> L -> bool) (zero : P) (ninf : L) (m : lm P L) (lx : lexicon) (w : str).
  Notation known x := (has_ngram P L zero ninf m x 1 = true).
  Definition good_endings (es : list str) : Prop := Forall (fun e => e <> [] /\ length e <= 3 /\ Forall (fun a => In a w \/ (97 <= a <= 122)%N) e) es.
  (** [reading t s rl fr]: the result [fr] of the rules is a choice between endings, the lemma being one of the choices, and is
      not hidden; or the lemma is hidden and no choice *)
  Definition reading (t : tag) (s : suffix) (rl : str) (fr : res lemma_result) : Prop :=
    (exists x tl es, fr = lm_lemma U P L leL zero ninf m lx w t (rev x) es s /\ rev w = tl ++ x /\ good_endings es /\ (exists e, In e es /\ rl = rev e ++ x) /\
       (forall e, In e es -> rinflected t (rev w) (rev e ++ x) s) /\ ~ rhidden (known (w ++ lit "es")) (In w (lx_adjs lx)) t (rev w) rl) \/
    rhidden (known (w ++ lit "es")) (In w (lx_adjs lx)) t (rev w) rl /\
      (fr = Ok (w, None) \/ exists x tl es s', fr = lm_lemma U P L leL zero ninf m lx w t (rev x) es s' /\ rev w = tl ++ x /\ good_endings es /\ forall e, In e es -> rl <> rev e ++ x).
  Lemma reading_intro t s0 x tl es fr rl s :
    fr = lm_lemma U P L leL zero ninf m lx w t (rev x) es s0 -> rev w = tl ++ x -> good_endings es -> rinflected t (rev w) rl s ->
    (forall e, In e es -> rinflected t (rev w) (rev e ++ x) s0) ->
    (forall e, In e es -> rhidden (known (w ++ lit "es")) (In w (lx_adjs lx)) t (rev w) (rev e ++ x) -> False) ->
    (forall rl s, rinflected t (rev w) rl s -> (exists e, In e es /\ rl = rev e ++ x) /\ s = s0 \/ rhidden (known (w ++ lit "es")) (In w (lx_adjs lx)) t (rev w) rl) ->
    reading t s rl fr.
  Proof.
    intros Hf Hw Hg Hi H0 H1 H2. destruct (H2 _ _ Hi) as [((e & He & El) & ->)|Hh].
    - left. exists x, tl, es. split; [exact Hf|]. split; [exact Hw|]. split; [exact Hg|]. split; [eauto|]. split; [exact H0|]. intros F. subst rl. exact (H1 e He F).
    - right. split; [exact Hh|]. right. exists x, tl, es, s0. split; [exact Hf|]. split; [exact Hw|]. split; [exact Hg|]. intros e He ->. exact (H1 e He Hh).
  Qed.
End Readings.

Ltac lits := repeat match goal with
  | H : context [rev (lit ?s)] |- _ => let v := eval vm_compute in (rev (lit s)) in change (rev (lit s)) with v in H
  | |- context [rev (lit ?s)] => let v := eval vm_compute in (rev (lit s)) in change (rev (lit s)) with v
  end; cbn [app] in *.
Ltac closed_char :=
  match goal with
  | H : consonant (Npos _) |- _ => exfalso; apply consonant_b in H; vm_compute in H; discriminate H
  | H : vowel (Npos _) |- _ => exfalso; apply vowel_b in H; vm_compute in H; discriminate H
  | H : consonant ?c, K : vowel ?c |- _ => exfalso; revert H K; clear; intros H K; cbn in H, K; intuition congruence
  end.
Ltac peel := repeat (match goal with
  | H : ?a = ?a |- _ => clear H
  | H : Npos _ = Npos _ |- _ => discriminate H
  | H : _ :: _ = [] |- _ => discriminate H
  | H : [] = _ :: _ |- _ => discriminate H
  | H : _ :: _ = _ :: _ |- _ => injection H; clear H; intros; try subst
  | H : [] <> [] |- _ => congruence
  end; try discriminate).
(** the entries of a table *)
Ltac entries H := cbn [In inflections consonant_inflections doubling only_lemmas] in H;
  repeat (destruct H as [H|H]); [..|destruct H]; try discriminate H.
Ltac not_fit := match goal with
  | N : forall _ _, consonant _ -> _ <= _ -> _ <> _ |- False => solve [eapply N; [| |lits; reflexivity]; [assumption|cbn [length] in *; lia]]
  | N : forall _ _ _, _ <> [] -> vowel _ -> consonant _ -> _ <> _ |- False => solve [eapply N; [..|lits; reflexivity]; [congruence|assumption|assumption]]
  | N : forall _ _, _ <= _ -> _ <> _ |- False => solve [eapply N; [|lits; reflexivity]; cbn [length] in *; lia]
  | N : forall _, _ <= _ -> _ <> _ |- False => solve [eapply N; [|lits; reflexivity]; cbn [length] in *; lia]
  | N : forall new, In new _ -> _ <> _ |- False => solve [eapply N; [left; reflexivity|lits; reflexivity]|eapply N; [right; left; reflexivity|lits; reflexivity]|eapply N; [right; right; left; reflexivity|lits; reflexivity]]
  end.
