(** Proofs about the normalization layer: regular inflections, prefixes, spellings, past participles. *)
From Coq Require Import Ascii String.
From Coq Require Import List NArith ZArith Arith Bool Lia Permutation.
From Verif Require Import PyBase Regex MUtils MTree MNgram MLangModel MNormal SNormal SLangModel LBase SUtils LText LRegex LLangModel LNormal.
Import ListNotations.
Local Open Scope nat_scope.

Section Strong.
  Context (U : udb) (OK : udb_ok U) (P L : Type) (leL : L -> L -> bool) (zero : P) (ninf : L) (m : lm P L).
  Notation attested x := (lm_contains P L m x = true).
  Context (BO : best_ok P L leL zero ninf m).
  Definition nospace (s : str) : Prop := Forall (fun c => u_space U c = false) s.
  Definition att (t : tag) (b : str) : Prop :=
    attested b \/ exists x, attested (x ++ 32%N :: b) /\ (t = VERB -> exists v, In v verb_subjects /\ x = lit v).
  Lemma nospace_app a b : nospace (a ++ b) <-> nospace a /\ nospace b.
  Proof. apply Forall_app. Qed.
  Lemma space32 : u_space U 32%N = true.
  Proof. rewrite (ok_space _ OK) by reflexivity. reflexivity. Qed.
  Lemma best_candidate_strong st es t : nospace st -> Forall (fun e => e <> [] /\ nospace e) es ->
    exists o, best_candidate U P L leL zero ninf m st es t = Ok o /\ forall b, o = Some b -> exists e, In e es /\ b = st ++ e /\ att t b.
  Proof.
    intros Hst Hes. unfold best_candidate. set (cs := map (fun e => st ++ e) es). set (tb := match t with VERB => verb_contexts | _ => cs end).
    assert (G : exists o, (let! best := best_ngram P L leL zero ninf m (flat_map (fun c => map (fun t => join (lit " ") [t; c]) tb) cs) in
      match best with Some b => let! l := index (split_ws (u_space U) b) (-1) in Ok (Some l) | None => best_ngram P L leL zero ninf m cs end) = Ok o /\
      forall b, o = Some b -> exists e, In e es /\ b = st ++ e /\ att t b).
    { destruct (BO (flat_map (fun c => map (fun t => join (lit " ") [t; c]) tb) cs)) as [[_ ->]|(x & Hx & -> & Ha)]; cbn [rbind].
      - destruct (BO cs) as [[_ ->]|(x & Hx & -> & Ha)]; [exists None; split; [reflexivity|discriminate]|]. exists (Some x). split; [reflexivity|]. intros b E. injection E as <-.
        apply in_map_iff in Hx. destruct Hx as (e & <- & He). exists e. split; [exact He|]. split; [reflexivity|left; exact Ha].
      - apply in_flat_map in Hx. destruct Hx as (c & Hc & Hx). apply in_map_iff in Hx. destruct Hx as (x0 & <- & Hx). rewrite join2 in *.
        apply in_map_iff in Hc. destruct Hc as (e & <- & He). pose proof (proj1 (Forall_forall _ _) Hes e He) as [He1 He2].
        rewrite split_ws_app_space by apply space32. rewrite (split_ws_word (u_space U) (st ++ e)); [|destruct st; [exact He1|discriminate]|apply nospace_app; auto].
        rewrite index_last. cbn [rbind]. eexists. split; [reflexivity|]. intros b E. injection E as <-. exists e. split; [exact He|]. split; [reflexivity|]. right.
        exists x0. split; [exact Ha|]. intros ->. subst tb. unfold verb_contexts in Hx. apply in_map_iff in Hx. destruct Hx as (v & <- & Hv). exists v. split; [exact Hv|reflexivity]. }
    destruct es as [|e [|e2 es]]; [exact G| |exact G].
    eexists. split; [reflexivity|]. destruct (has_ngram _ _ _ _ _ _ _) eqn:E; [|discriminate]. intros b H. injection H as <-. exists e. split; [left; reflexivity|]. split; [reflexivity|].
    left. apply (has_ngram_attested P L zero ninf m _ 1%Z); [lia|exact E].
  Qed.
  Context (lx : lexicon).
  Notation lm_lemma := (lm_lemma U P L leL zero ninf m lx).
  Notation grounded := (grounded (lx_prefixes lx) (fun x => attested x)).
  Lemma lm_lemma_strong w t st es s : nospace st -> Forall (fun e => e <> [] /\ nospace e) es ->
    exists r, lm_lemma w t st es s = Ok r /\ (r = (w, None) \/ exists e, In e es /\ r = (st ++ e, Some s) /\ grounded t (st ++ e)).
  Proof.
    intros Hst Hes. unfold MNormal.lm_lemma. destruct (best_candidate_strong st es t Hst Hes) as (o & -> & Ho). cbn [rbind]. destruct o as [b|].
    - eexists. split; [reflexivity|]. right. destruct (Ho b eq_refl) as (e & He & -> & Ha). exists e. split; [exact He|]. split; [reflexivity|]. exists [], (st ++ e). split; [left; reflexivity|]. split; [reflexivity|exact Ha].
    - destruct (token_prefix st (lx_prefixes lx)) as [[p b]|] eqn:E; [|eexists; split; [reflexivity|left; reflexivity]].
      apply token_prefix_is in E. destruct E as [-> Hp]. apply nospace_app in Hst. destruct Hst as [_ Hb].
      destruct (best_candidate_strong b es t Hb Hes) as (o & -> & Ho'). cbn [rbind]. destruct o as [b'|]; [|eexists; split; [reflexivity|left; reflexivity]].
      eexists. split; [reflexivity|]. right. destruct (Ho' b' eq_refl) as (e & He & -> & Ha). exists e. split; [exact He|]. rewrite <- app_assoc. split; [reflexivity|]. exists p, (b ++ e). auto.
  Qed.

  Definition good (w : str) (t : tag) (r : lemma_result) : Prop :=
    r = (w, None) \/ exists l s, r = (l, Some s) /\ inflected t w l s /\ grounded t l.
  Definition rule_ok (w : str) (t : tag) (x : rule_result) : Prop := exists o, x = Ok o /\ forall r, o = Some r -> good w t r.
  Lemma first_rule_ok w t rules d : Forall (fun rule => rule_ok w t (rule tt)) rules -> good w t d -> exists r, first_rule rules d = Ok r /\ good w t r.
  Proof.
    intros H Hd. induction H as [|f rules (o & E & Ho) _ IH]; cbn [first_rule]; [eauto|]. rewrite E. cbn [rbind]. destruct o as [y|]; [eauto|exact IH].
  Qed.
  Definition low (s : string) : bool := forallb (fun c => (97 <=? c) && (c <=? 122))%N (lit s).
  Lemma low_nospace s : low s = true -> nospace (lit s).
  Proof.
    unfold low, nospace. intros H. rewrite forallb_forall in H. apply Forall_forall. intros c Hc. apply H in Hc. apply andb_true_iff in Hc. rewrite !N.leb_le in Hc.
    rewrite (ok_space _ OK) by lia. unfold ascii_space.
    assert (forall k, (k < 97)%N -> N.eqb c k = false) by (intros k Hk; apply N.eqb_neq; lia).
    rewrite ?H0 by lia. repeat match goal with |- context [(?a <=? ?b)%N] => destruct (N.leb_spec a b); try lia end; cbn; reflexivity.
  Qed.
  Lemma some_ok w t x : (exists r, x = Ok r /\ good w t r) -> rule_ok w t (some_res x).
  Proof. intros (r & -> & Hr). exists (Some r). split; [reflexivity|]. intros r' E. injection E as <-. exact Hr. Qed.
  Lemma none_ok w t : rule_ok w t (Ok None).
  Proof. exists None. split; [reflexivity|discriminate]. Qed.
  (** a rule on a start of the word *)
  Definition kind_ok (t : tag) (n : nat) (old : string) (f : str -> str -> rule_result) : Prop :=
    forall w start, nospace w -> w = start ++ lit old -> n <= length start -> start <> [] -> rule_ok w t (f w start).
  Lemma on_start_ok w t n old f : nospace w -> lit old <> [] -> kind_ok t n old f -> rule_ok w t (on_start w (lit old) n (f w)).
  Proof.
    intros Hw Ho Hf. unfold on_start. destruct (token_start w (lit old) n) as [start|] eqn:E; [|apply none_ok]. apply token_start_spec in E; [|exact Ho]. destruct E as (-> & Hs & Hn).
    apply Hf; auto.
  Qed.
  Definition in_table (t : tag) (n : nat) (old : string) (news : list string) (s : suffix) : Prop :=
    Forall (fun new => In (t, n, old, new, s) inflections) news.
  Lemma good_plain w t n old new s start : In (t, n, old, new, s) inflections -> n <= length start -> w = start ++ lit old -> grounded t (start ++ lit new) -> good w t (start ++ lit new, Some s).
  Proof. intros H1 H2 H3 H4. right. exists (start ++ lit new), s. split; [reflexivity|]. split; [eapply inflected_plain; eassumption|exact H4]. Qed.
  Definition in_ctable (t : tag) (n : nat) (old : string) (news : list string) (s : suffix) : Prop :=
    Forall (fun new => In (t, n, old, new, s) consonant_inflections) news.
  Lemma plain_ok t n old news s : in_table t n old news s -> Forall (fun new => lit new <> [] /\ low new = true) news ->
    kind_ok t n old (fun w => plain U P L leL zero ninf m lx w t (map lit news) s).
  Proof.
    intros HT HN w start Hw Ew Hn Hs. apply some_ok. rewrite Ew in Hw. apply nospace_app in Hw. destruct Hw as [Hst _].
    destruct (lm_lemma_strong w t start (map lit news) s Hst) as (r & -> & Hr).
    { apply Forall_map. eapply Forall_impl; [|exact HN]. cbn. intros new [H1 H2]. split; [exact H1|apply low_nospace; exact H2]. }
    eexists. split; [reflexivity|]. destruct Hr as [->|(e & He & -> & Hg)]; [left; reflexivity|]. apply in_map_iff in He. destruct He as (new & <- & Hnew).
    eapply good_plain; [|exact Hn|exact Ew|exact Hg]. exact (proj1 (Forall_forall _ _) HT new Hnew).
  Qed.
  Lemma after_ok t n old news s : in_ctable t n old news s -> Forall (fun new => lit new <> [] /\ low new = true) news ->
    kind_ok t n old (fun w => after_consonant U P L leL zero ninf m lx w t (map lit news) s).
  Proof.
    intros HT HN w start Hw Ew Hn Hs. unfold after_consonant, ends_with_consonant. destruct (snoc start Hs) as (q & c & Eq). rewrite Eq at 1. rewrite index_last. cbn [rbind].
    destruct (char_in c CONSONANTS) eqn:Ec; [|apply none_ok]. apply some_ok. rewrite Ew in Hw. apply nospace_app in Hw. destruct Hw as [Hst _].
    destruct (lm_lemma_strong w t start (map lit news) s Hst) as (r & -> & Hr).
    { apply Forall_map. eapply Forall_impl; [|exact HN]. cbn. intros new [H1 H2]. split; [exact H1|apply low_nospace; exact H2]. }
    eexists. split; [reflexivity|]. destruct Hr as [->|(e & He & -> & Hg)]; [left; reflexivity|]. apply in_map_iff in He. destruct He as (new & <- & Hnew).
    right. exists (start ++ lit new), s. split; [reflexivity|]. split; [|exact Hg]. subst start. eapply inflected_consonant; [exact (proj1 (Forall_forall _ _) HT new Hnew)|apply char_in_In; exact Ec|exact Hn|exact Ew].
  Qed.
  Lemma last_ok t n old news s : in_table t n old news s -> Forall (fun new => low new = true) news ->
    kind_ok t n old (fun w => last_kept U P L leL zero ninf m lx w t (map lit news) s).
  Proof.
    intros HT HN w start Hw Ew Hn Hs. unfold last_kept. destruct (snoc start Hs) as (q & c & ->). rewrite index_last. cbn [rbind]. rewrite slice_last1. apply some_ok.
    rewrite Ew in Hw. apply nospace_app in Hw. destruct Hw as [Hst _]. apply nospace_app in Hst. destruct Hst as [Hq Hc].
    destruct (lm_lemma_strong w t q (map (fun e => c :: e) (map lit news)) s Hq) as (r & -> & Hr).
    { apply Forall_map, Forall_map. eapply Forall_impl; [|exact HN]. cbn. intros new H2. split; [discriminate|]. constructor; [inversion Hc; assumption|apply low_nospace; exact H2]. }
    eexists. split; [reflexivity|]. destruct Hr as [->|(e & He & -> & Hg)]; [left; reflexivity|]. rewrite map_map in He. apply in_map_iff in He. destruct He as (new & <- & Hnew).
    replace (q ++ c :: lit new) with ((q ++ [c]) ++ lit new) in * by (rewrite <- app_assoc; reflexivity).
    eapply good_plain; [|exact Hn|exact Ew|exact Hg]. exact (proj1 (Forall_forall _ _) HT new Hnew).
  Qed.
  Lemma doubled_ok t n0 n old s : In (t, old, s) doubling -> In (t, n0, old, ""%string, s) inflections -> n0 <= n ->
    kind_ok t n old (fun w => doubled U P L leL zero ninf m lx w t s).
  Proof.
    intros HD HT Hle w start Hw Ew Hn Hs. unfold doubled. destruct (vowel_double_consonant_endings start) as [es|] eqn:E; [|apply none_ok].
    destruct (vdce_inv _ _ E) as (stem & v & c & Est & Hv & Hc & ->). clear E. subst start. pose proof (app_assoc stem [v] [c; c]) as Ea. cbn [app] in Ea.
    rewrite Ea. rewrite slice_last2. apply some_ok. rewrite Ew in Hw. rewrite Ea in Hw. apply nospace_app in Hw. destruct Hw as [Hst _]. apply nospace_app in Hst. destruct Hst as [Hq Hcc].
    inversion Hcc as [|? ? Hc1 _]; subst.
    match goal with |- exists r, MNormal.lm_lemma _ _ _ _ _ _ _ _ ?w _ _ _ _ = Ok r /\ _ => destruct (lm_lemma_strong w t (stem ++ [v]) [[c]; [c; c]] s Hq) as (r & -> & Hr) end.
    { repeat constructor; try discriminate; assumption. }
    eexists. split; [reflexivity|]. destruct Hr as [->|(e & He & -> & Hg)]; [left; reflexivity|]. destruct He as [<-|[<-|[]]].
    - right. rewrite <- app_assoc in *. cbn [app] in *. eexists. exists s. split; [reflexivity|]. split; [|exact Hg]. eapply inflected_doubled; [exact HD|exact Hv|exact Hc|]. rewrite <- app_assoc. reflexivity.
    - assert (El : (stem ++ [v]) ++ [c; c] = (stem ++ [v; c; c]) ++ lit "") by (rewrite app_nil_r, <- app_assoc; reflexivity). rewrite El in *.
      eapply good_plain; [exact HT|lia|reflexivity|exact Hg].
  Qed.
  Lemma cond_ok (b : str -> bool) t n old f : kind_ok t n old f -> kind_ok t n old (fun w start => if b w then Ok None else f w start).
  Proof. intros H w start H1 H2 H3 H4. destruct (b w); [apply none_ok|]. apply H; assumption. Qed.
  Ltac in_tab := unfold in_table, in_ctable; repeat match goal with |- Forall _ _ => constructor end; unfold inflections, consonant_inflections, doubling; cbn [In]; solve [repeat first [left; reflexivity|right]].
  Lemma rules_ok w t : nospace w -> Forall (fun rule => rule_ok w t (rule tt)) (rules_of U P L leL zero ninf m lx w t).
  Proof.
    intros Hw. destruct t; cbn [rules_of]; try solve [constructor].
    - unfold adj_rules. repeat match goal with |- Forall _ (_ :: _) => constructor | |- Forall _ [] => constructor end.
      + apply (on_start_ok w ADJ 4 "est"%string (fun w => doubled U P L leL zero ninf m lx w ADJ SUPERLATIVE) Hw ltac:(discriminate)). apply (doubled_ok ADJ 3); [in_tab|in_tab|lia].
      + apply (on_start_ok w ADJ 4 "er"%string (fun w => doubled U P L leL zero ninf m lx w ADJ COMPARATIVE) Hw ltac:(discriminate)). apply (doubled_ok ADJ 3); [in_tab|in_tab|lia].
      + apply (on_start_ok w ADJ 2 "iest"%string (fun w => after_consonant U P L leL zero ninf m lx w ADJ (map lit ["y"%string]) SUPERLATIVE) Hw ltac:(discriminate)). apply after_ok; [in_tab|repeat constructor; discriminate].
      + apply (on_start_ok w ADJ 3 "est"%string (fun w => last_kept U P L leL zero ninf m lx w ADJ (map lit [""; "e"]%string) SUPERLATIVE) Hw ltac:(discriminate)). apply last_ok; [in_tab|repeat constructor].
      + apply (on_start_ok w ADJ 2 "ier"%string (fun w => after_consonant U P L leL zero ninf m lx w ADJ (map lit ["y"%string]) COMPARATIVE) Hw ltac:(discriminate)). apply after_ok; [in_tab|repeat constructor; discriminate].
      + apply (on_start_ok w ADJ 3 "er"%string (fun w start => if str_in w (lx_adjs lx) then Ok None else last_kept U P L leL zero ninf m lx w ADJ (map lit [""; "e"]%string) COMPARATIVE start) Hw ltac:(discriminate)).
        apply (cond_ok (fun w => str_in w (lx_adjs lx))). apply last_ok; [in_tab|repeat constructor].
    - unfold noun_rules. repeat match goal with |- Forall _ (_ :: _) => constructor | |- Forall _ [] => constructor end.
      + apply (on_start_ok w NOUN 5 "a"%string (fun w => plain U P L leL zero ninf m lx w NOUN (map lit ["on"%string]) PLURAL) Hw ltac:(discriminate)). apply plain_ok; [in_tab|repeat constructor; discriminate].
      + apply (on_start_ok w NOUN 1 "ieves"%string (fun w => after_consonant U P L leL zero ninf m lx w NOUN (map lit ["ief"%string]) PLURAL) Hw ltac:(discriminate)). apply after_ok; [in_tab|repeat constructor; discriminate].
      + apply (on_start_ok w NOUN 4 "i"%string (fun w => plain U P L leL zero ninf m lx w NOUN (map lit ["us"%string]) PLURAL) Hw ltac:(discriminate)). apply plain_ok; [in_tab|repeat constructor; discriminate].
      + apply (on_start_ok w NOUN 2 "ies"%string (fun w => after_consonant U P L leL zero ninf m lx w NOUN (map lit ["y"; "ie"]%string) PLURAL) Hw ltac:(discriminate)). apply after_ok; [in_tab|repeat constructor; discriminate].
      + apply (on_start_ok w NOUN 2 "ves"%string (fun w => plain U P L leL zero ninf m lx w NOUN (map lit ["f"; "fe"; "ve"]%string) PLURAL) Hw ltac:(discriminate)). apply plain_ok; [in_tab|repeat constructor; discriminate].
      + apply (on_start_ok w NOUN 2 "men"%string (fun w => plain U P L leL zero ninf m lx w NOUN (map lit ["man"]%string) PLURAL) Hw ltac:(discriminate)). apply plain_ok; [in_tab|repeat constructor; discriminate].
      + apply (on_start_ok w NOUN 2 "es"%string (fun w => last_kept U P L leL zero ninf m lx w NOUN (map lit [""; "e"; "is"]%string) PLURAL) Hw ltac:(discriminate)). apply last_ok; [in_tab|repeat constructor].
      + apply (on_start_ok w NOUN 2 "s"%string (fun w start => if endswith w (lit "ss") || has_ngram P L zero ninf m (w ++ lit "es") 1 then Ok None else last_kept U P L leL zero ninf m lx w NOUN (map lit [""]%string) PLURAL start) Hw ltac:(discriminate)).
        apply (cond_ok (fun w => endswith w (lit "ss") || has_ngram P L zero ninf m (w ++ lit "es") 1)). apply last_ok; [in_tab|repeat constructor].
    - unfold verb_rules. repeat match goal with |- Forall _ (_ :: _) => constructor | |- Forall _ [] => constructor end.
      + apply (on_start_ok w VERB 2 "icking"%string (fun w => after_consonant U P L leL zero ninf m lx w VERB (map lit ["ic"%string]) PROGRESSIVE) Hw ltac:(discriminate)). apply after_ok; [in_tab|repeat constructor; discriminate].
      + apply (on_start_ok w VERB 2 "icked"%string (fun w => after_consonant U P L leL zero ninf m lx w VERB (map lit ["ic"%string]) PAST) Hw ltac:(discriminate)). apply after_ok; [in_tab|repeat constructor; discriminate].
      + apply (on_start_ok w VERB 4 "ing"%string (fun w => doubled U P L leL zero ninf m lx w VERB PROGRESSIVE) Hw ltac:(discriminate)). apply (doubled_ok VERB 3); [in_tab|in_tab|lia].
      + apply (on_start_ok w VERB 3 "ing"%string (fun w => last_kept U P L leL zero ninf m lx w VERB (map lit [""; "e"]%string) PROGRESSIVE) Hw ltac:(discriminate)). apply last_ok; [in_tab|repeat constructor].
      + apply (on_start_ok w VERB 2 "icks"%string (fun w => after_consonant U P L leL zero ninf m lx w VERB (map lit ["ic"%string]) THIRD_PERSON) Hw ltac:(discriminate)). apply after_ok; [in_tab|repeat constructor; discriminate].
      + apply (on_start_ok w VERB 4 "ed"%string (fun w => doubled U P L leL zero ninf m lx w VERB PAST) Hw ltac:(discriminate)). apply (doubled_ok VERB 2); [in_tab|in_tab|lia].
      + apply (on_start_ok w VERB 2 "ied"%string (fun w => after_consonant U P L leL zero ninf m lx w VERB (map lit ["y"%string]) PAST) Hw ltac:(discriminate)). apply after_ok; [in_tab|repeat constructor; discriminate].
      + apply (on_start_ok w VERB 1 "ies"%string (fun w => after_consonant U P L leL zero ninf m lx w VERB (map lit ["y"; "ie"]%string) THIRD_PERSON) Hw ltac:(discriminate)). apply after_ok; [in_tab|repeat constructor; discriminate].
      + apply (on_start_ok w VERB 2 "ed"%string (fun w => last_kept U P L leL zero ninf m lx w VERB (map lit [""; "e"]%string) PAST) Hw ltac:(discriminate)). apply last_ok; [in_tab|repeat constructor].
      + apply (on_start_ok w VERB 2 "es"%string (fun w => last_kept U P L leL zero ninf m lx w VERB (map lit [""; "e"]%string) THIRD_PERSON) Hw ltac:(discriminate)). apply last_ok; [in_tab|repeat constructor].
      + apply (on_start_ok w VERB 2 "s"%string (fun w => last_kept U P L leL zero ninf m lx w VERB (map lit [""]%string) THIRD_PERSON) Hw ltac:(discriminate)). apply last_ok; [in_tab|repeat constructor].
  Qed.
  Lemma lower_nospace w : nospace w -> nospace (lower U w).
  Proof.
    unfold nospace, lower. rewrite !Forall_forall. intros H c Hc. apply in_flat_map in Hc. destruct Hc as (d & Hd & Hc). rewrite (ok_lower_space _ OK d c Hc). apply H. exact Hd.
  Qed.
  Theorem lemmatize_strong word t : nospace word -> exists l s, lemmatize U P L leL zero ninf m lx word t = Ok (l, s) /\
    let w := lower U word in
    (is_special t w l s \/ (exists p b l', is_prefix (lx_prefixes lx) p /\ w = p ++ b /\ is_irregular lx t b l' s /\ l = p ++ l') \/
     (l = w /\ s = None) \/ exists s', s = Some s' /\ inflected t w l s' /\ grounded t l).
  Proof.
    intros Hw. rewrite lemmatize_rules. cbv zeta. set (w := lower U word). destruct (full_match w t) as [[l s]|] eqn:E1.
    { exists l, s. split; [reflexivity|]. left. apply full_match_special. exact E1. }
    destruct (irregular_lemma lx w t) as [[l s]|] eqn:E2.
    { exists l, s. split; [reflexivity|]. right. left. exists [], w, l. split; [left; reflexivity|]. split; [reflexivity|]. split; [apply irregular_is; exact E2|reflexivity]. }
    destruct (match token_prefix w (lx_prefixes lx) with Some _ => _ | None => _ end) as [[l s]|] eqn:E3.
    { exists l, s. split; [reflexivity|]. destruct (token_prefix w (lx_prefixes lx)) as [[p b]|] eqn:E; [|discriminate]. destruct (irregular_lemma lx b t) as [[l' s']|] eqn:E4; [|discriminate].
      injection E3 as <- ->. right. left. apply token_prefix_is in E. destruct E as [Ew Hp]. exists p, b, l'. split; [exact Hp|]. split; [exact Ew|]. split; [apply irregular_is; exact E4|reflexivity]. }
    destruct (first_rule_ok w t (rules_of U P L leL zero ninf m lx w t) (w, None)) as ([l s] & E & Hg); [apply rules_ok, lower_nospace, Hw|left; reflexivity|].
    exists l, s. split; [exact E|]. right. right. destruct Hg as [Hg|(l' & s' & Hg & H1 & H2)]; injection Hg as -> ->; [left; auto|right; eauto].
  Qed.
End Strong.

(** ** C39 *)
Section Order.
  Lemma prefix_compare (w p q r r' : str) : w = p ++ r -> w = q ++ r' -> startswith q p = true \/ startswith p q = true.
  Proof.
    revert w q. induction p as [|c p IH]; intros w q H1 H2.
    - left. apply startswith_iff. exists q. reflexivity.
    - destruct q as [|d q]; [right; apply startswith_iff; eexists; reflexivity|]. subst w. cbn in H2. injection H2 as <- H2.
      destruct (IH _ q eq_refl H2) as [H|H]; apply startswith_iff in H; destruct H as (x & ->); [left|right]; apply startswith_iff; exists x; reflexivity.
  Qed.
  Lemma PREFIXES_free p q : In p PREFIXES -> In q PREFIXES -> startswith p q = true -> p = q.
  Proof.
    intros Hp Hq H. assert (A : forallb (fun p => forallb (fun q => negb (startswith p q) || str_eqb p q) PREFIXES) PREFIXES = true) by (vm_compute; reflexivity).
    rewrite forallb_forall in A. specialize (A p Hp). rewrite forallb_forall in A. specialize (A q Hq). rewrite H in A. apply str_eqb_eq. exact A.
  Qed.
  Lemma token_prefix_order ps w : Permutation PREFIXES ps -> token_prefix w ps = token_prefix w PREFIXES.
  Proof.
    intros HP. destruct (occurs_once_dec 45%N w) as [(x & y & H1 & H2 & H3)|Ho]; [rewrite !(token_prefix_hyphen w _ x y H1 H2 H3); reflexivity|].
    rewrite !token_prefix_other by exact Ho. assert (E : find (fun p => startswith w p) ps = find (fun p => startswith w p) PREFIXES); [|rewrite E; reflexivity].
    destruct (find _ ps) as [p|] eqn:F1.
    - apply find_some in F1. destruct F1 as [I1 S1]. apply (Permutation_in _ (Permutation_sym HP)) in I1. destruct (find _ PREFIXES) as [q|] eqn:F2.
      + apply find_some in F2. destruct F2 as [I2 S2]. f_equal. apply startswith_iff in S1, S2. destruct S1 as [r S1], S2 as [r' S2].
        destruct (prefix_compare w p q r r' S1 S2) as [H|H]; [symmetry|]; apply PREFIXES_free; assumption.
      + exfalso. pose proof (find_none _ _ F2 p I1). congruence.
    - destruct (find _ PREFIXES) as [q|] eqn:F2; [|reflexivity]. exfalso. apply find_some in F2. destruct F2 as [I2 S2]. apply (Permutation_in _ HP) in I2. pose proof (find_none _ _ F1 q I2). congruence.
  Qed.
  Context (U : udb) (P L : Type) (leL : L -> L -> bool) (zero : P) (ninf : L) (m : lm P L).
  Lemma first_rule_ext rules rules' d : Forall2 (fun r r' => r tt = r' tt) rules rules' -> first_rule rules d = first_rule rules' d.
  Proof. induction 1 as [|r r' rs rs' E _ IH]; [reflexivity|]. cbn. rewrite E, IH. reflexivity. Qed.
  Lemma on_start_ext w e n f f' : (forall start, f start = f' start) -> on_start w e n f = on_start w e n f'.
  Proof. intros H. unfold on_start. destruct (token_start w e n); auto. Qed.
  Lemma lemmatize_ext a b word t : same_lexicon a b -> (forall w, token_prefix w (lx_prefixes a) = token_prefix w (lx_prefixes b)) ->
    lemmatize U P L leL zero ninf m a word t = lemmatize U P L leL zero ninf m b word t.
  Proof.
    intros HS HP. rewrite !lemmatize_rules. cbv zeta. rewrite HP.
    destruct a as [a1 a2 a3 a4 a5 a6 a7 ps], b as [b1 b2 b3 b4 b5 b6 b7 ps']. unfold same_lexicon in HS. cbn in HS, HP. destruct HS as (-> & -> & -> & -> & -> & -> & ->). cbn [lx_prefixes] in *.
    set (a := {| lx_adjs := b1; lx_prefixes := ps |}) in *. set (b := {| lx_adjs := b1; lx_prefixes := ps' |}) in *.
    assert (HL : forall w t st es s, lm_lemma U P L leL zero ninf m a w t st es s = lm_lemma U P L leL zero ninf m b w t st es s).
    { intros. unfold lm_lemma. subst a b. cbn [lx_prefixes]. rewrite HP. reflexivity. }
    assert (HD : forall w t s start, doubled U P L leL zero ninf m a w t s start = doubled U P L leL zero ninf m b w t s start).
    { intros. unfold doubled. destruct (vowel_double_consonant_endings start); [rewrite HL|]; reflexivity. }
    assert (HQ : forall w t es s start, plain U P L leL zero ninf m a w t es s start = plain U P L leL zero ninf m b w t es s start).
    { intros. unfold plain. rewrite HL. reflexivity. }
    assert (HA : forall w t es s start, after_consonant U P L leL zero ninf m a w t es s start = after_consonant U P L leL zero ninf m b w t es s start).
    { intros. unfold after_consonant. destruct (ends_with_consonant start); [|reflexivity]. cbn [rbind]. rewrite HL. reflexivity. }
    assert (HK : forall w t es s start, last_kept U P L leL zero ninf m a w t es s start = last_kept U P L leL zero ninf m b w t es s start).
    { intros. unfold last_kept. destruct (index start (-1)); [|reflexivity]. cbn [rbind]. rewrite HL. reflexivity. }
    assert (E : forall w, first_rule (rules_of U P L leL zero ninf m a w t) (w, None) = first_rule (rules_of U P L leL zero ninf m b w t) (w, None)).
    { intros w. apply first_rule_ext. destruct t; cbn [rules_of]; try solve [constructor]; unfold adj_rules, verb_rules, noun_rules;
      repeat match goal with |- Forall2 _ (_ :: _) _ => constructor | |- Forall2 _ [] _ => constructor end; apply on_start_ext; intros start;
      first [apply HD|apply HA|apply HK|apply HQ|rewrite HK; reflexivity]. }
    rewrite E. reflexivity.
  Qed.
End Order.
