(** C37-C41, C71: lemmas, prefixes, spellings and past participles. Each theorem is followed by a case that meets its
    hypotheses. *)
From Coq Require Import Ascii String.
From Coq Require Import List NArith ZArith Arith Bool Lia Permutation.
From Verif Require Import PyBase Regex MUtils MTree MNgram MLangModel MNormal SNormal SLangModel LBase SUtils LText LUdb LRegex LLangModel LNormal LNormal2 LNormal3.
Import ListNotations.
Local Open Scope nat_scope.

(** The language model of the witnesses: integers as probabilities. *)
Definition w_log (p : Z) : res (option Z) := if (p <=? 0)%Z then Err ValueError else Ok (Some p).
Definition w_leL (x y : option Z) : bool := match x, y with None, _ => true | Some _, None => false | Some a, Some b => (a <=? b)%Z end.
Definition w_load := load_lm ascii_udb Z (option Z) Z.leb (int_of_str ascii_space) w_log.
Definition w_files : list (list str) :=
  let tab a b c := lit a ++ [9%N] ++ lit b ++ [9%N] ++ lit c ++ [10%N] in
  [ [tab "cat"%string "3"%string "200"%string; tab "stop"%string "3"%string "300"%string; tab "make"%string "8"%string "10"%string; tab "color"%string "8"%string "50"%string;
     tab "theatre"%string "7"%string "9"%string; tab "stopped"%string "2"%string "9"%string; tab "planned"%string "2"%string "9"%string];
    [tab "they make"%string "3"%string "40"%string; tab "cat make"%string "1"%string "1"%string] ].
Definition w_lm : lm Z (option Z) := match w_load [1%Z; 1%Z] w_files with Ok m => m | Err _ => {| lm_max_order := 0; lm_details := []; lm_next := [] |} end.
Example w_loaded : w_load [1%Z; 1%Z] w_files = Ok w_lm /\ lm_len _ _ w_lm = 9.
Proof. split; vm_compute; reflexivity. Qed.
Example w_order : total_order w_leL /\ antisym w_leL /\ (forall x, w_leL None x = true) /\ (forall p l, w_log p = Ok l -> w_leL l None = false).
Proof.
  split; [split|split; [|split]].
  - intros [a|] [b|]; cbn; auto. rewrite !Z.leb_le. lia.
  - intros [a|] [b|] [c|]; cbn; auto; try discriminate. rewrite !Z.leb_le. lia.
  - intros [a|] [b|]; cbn; try discriminate; [|reflexivity]. rewrite !Z.leb_le. intros. f_equal. lia.
  - reflexivity.
  - intros p l. unfold w_log. destruct (p <=? 0)%Z; [discriminate|]. intros H. injection H as <-. reflexivity.
Qed.
Definition w_lx : lexicon := {| lx_adjs := [lit "clever"]; lx_preterit := [(lit "went", lit "go")]; lx_pp := [(lit "gone", lit "go"); (lit "done", lit "do")];
  lx_plural := [(lit "mice", lit "mouse")]; lx_comparative := [(lit "worse", lit "bad")]; lx_superlative := [(lit "worst", lit "bad")]; lx_lemma_pp := [(lit "go", lit "gone")];
  lx_prefixes := PREFIXES |}.
Definition w_lemmatize := lemmatize ascii_udb Z (option Z) w_leL 0%Z None w_lm w_lx.

Lemma loaded_best (U : udb) (P L : Type) (leP : P -> P -> bool) (leL : L -> L -> bool) zero ninf float_of_str (log : P -> res L) min_counts files m :
  total_order leL -> (forall x, leL ninf x = true) -> (forall p l, log p = Ok l -> leL l ninf = false) ->
  load_lm U P L leP float_of_str log min_counts files = Ok m -> best_ok P L leL zero ninf m.
Proof.
  intros H1 H2 H3 H4 args. destruct (best_ngram_spec U leP float_of_str log leL zero ninf H1 H3 min_counts files m args H4) as [H|(pre & x & post & E & H5 & H6 & _)]; [left; exact H|].
  right. exists x. split; [rewrite E; apply in_elt|auto].
Qed.

(** ** C37 *)
Theorem C37_suffix_fits : forall (U : udb) (P L : Type) (leP : P -> P -> bool) (leL : L -> L -> bool) zero ninf float_of_str (log : P -> res L) min_counts files m lx word t l s,
  total_order leL -> (forall x, leL ninf x = true) -> (forall p y, log p = Ok y -> leL y ninf = false) ->
  load_lm U P L leP float_of_str log min_counts files = Ok m ->
  lemmatize U P L leL zero ninf m lx word t = Ok (l, Some s) -> In s (suffixes_of t).
Proof. intros U P L leP leL zero ninf fl lg mcs files m lx word t l s H1 H2 H3 H4 H5. pose proof (loaded_best _ _ _ _ _ zero _ _ _ _ _ _ H1 H2 H3 H4) as BO. eapply (lemmatize_origin U P L leL zero ninf m BO lx word t l (Some s) H5). reflexivity. Qed.
Example C37_witness : w_lemmatize (lit "Cats") NOUN = Ok (lit "cat", Some PLURAL) /\ w_lemmatize (lit "makes") VERB = Ok (lit "make", Some THIRD_PERSON) /\
  w_lemmatize (lit "worse") ADJ = Ok (lit "bad", Some COMPARATIVE) /\ w_lemmatize (lit "of") PREP = Ok (lit "of", None).
Proof. repeat split; vm_compute; reflexivity. Qed.

(** ** C38 *)
Theorem C38_lemma_origin : forall (U : udb) (P L : Type) (leP : P -> P -> bool) (leL : L -> L -> bool) zero ninf float_of_str (log : P -> res L) min_counts files m lx word t l s,
  total_order leL -> (forall x, leL ninf x = true) -> (forall p y, log p = Ok y -> leL y ninf = false) ->
  load_lm U P L leP float_of_str log min_counts files = Ok m ->
  lemmatize U P L leL zero ninf m lx word t = Ok (l, s) ->
  lemma_origin (u_space U) lx (fun x => lm_contains P L m x = true) t (lower U word) l s.
Proof. intros U P L leP leL zero ninf fl lg mcs files m lx word t l s H1 H2 H3 H4 H5. pose proof (loaded_best _ _ _ _ _ zero _ _ _ _ _ _ H1 H2 H3 H4) as BO. eapply (lemmatize_origin U P L leL zero ninf m BO lx word t l s H5). Qed.
Theorem C38_without_attestation : forall (U : udb) (P L : Type) (leP : P -> P -> bool) (leL : L -> L -> bool) zero ninf float_of_str (log : P -> res L) min_counts files m lx word t l s,
  total_order leL -> (forall x, leL ninf x = true) -> (forall p y, log p = Ok y -> leL y ninf = false) ->
  load_lm U P L leP float_of_str log min_counts files = Ok m ->
  lemmatize U P L leL zero ninf m lx word t = Ok (l, s) -> (forall x, lm_contains P L m x = false) ->
  is_special t (lower U word) l s \/
  (exists p b l', is_prefix (lx_prefixes lx) p /\ lower U word = p ++ b /\ is_irregular lx t b l' s /\ l = p ++ l') \/
  l = lower U word /\ s = None.
Proof.
  intros U P L leP leL zero ninf fl lg mcs files m lx word t l s H1 H2 H3 H4 H5 H6.
  pose proof (C38_lemma_origin _ _ _ _ _ _ _ _ _ _ _ _ _ _ _ _ _ H1 H2 H3 H4 H5) as O. inversion O as [l0 s0 HS|p b l0 s0 Hp Hw Hi|p b r s0 Hp Hw Ha|p b r s0 x y be Hp Hw Ha|]; subst.
  - left. exact HS.
  - right. left. exists p, b, l0. auto.
  - rewrite H6 in Ha. discriminate.
  - rewrite H6 in Ha. discriminate.
  - right. right. auto.
Qed.
(** Special forms come first, then the tables: a word of a table gets the lemma of the table, and so does a word made of
    a recognized prefix and a word of a table. [looks_up t w l s]: what the tables say of a word. *)
Inductive looks_up (lx : lexicon) : tag -> str -> str -> suffix -> Prop :=
| look_plural w l : In (w, l) (lx_plural lx) -> looks_up lx NOUN w l PLURAL
| look_pp w l : In (w, l) (lx_pp lx) -> looks_up lx VERB w l PAST
| look_preterit w l : (forall l', ~ In (w, l') (lx_pp lx)) -> In (w, l) (lx_preterit lx) -> looks_up lx VERB w l PAST
| look_comparative w l : In (w, l) (lx_comparative lx) -> looks_up lx ADJ w l COMPARATIVE
| look_superlative w l : (forall l', ~ In (w, l') (lx_comparative lx)) -> In (w, l) (lx_superlative lx) -> looks_up lx ADJ w l SUPERLATIVE.
Definition tables_ok (lx : lexicon) : Prop :=
  NoDup (dkeys (lx_plural lx)) /\ NoDup (dkeys (lx_pp lx)) /\ NoDup (dkeys (lx_preterit lx)) /\ NoDup (dkeys (lx_comparative lx)) /\ NoDup (dkeys (lx_superlative lx)).
Theorem C38_tables_first : forall (U : udb) (P L : Type) (leL : L -> L -> bool) zero ninf (m : lm P L) lx word t, tables_ok lx ->
  let w := lower U word in
  (forall l s, is_special t w l s -> lemmatize U P L leL zero ninf m lx word t = Ok (l, s)) /\
  (forall l s, (forall l' s', ~ is_special t w l' s') -> looks_up lx t w l s -> lemmatize U P L leL zero ninf m lx word t = Ok (l, Some s)) /\
  (forall p b l s, (forall l' s', ~ is_special t w l' s') -> (forall l' s', ~ looks_up lx t w l' s') ->
     token_prefix w (lx_prefixes lx) = Some (p, b) -> looks_up lx t b l s -> lemmatize U P L leL zero ninf m lx word t = Ok (p ++ l, Some s)).
Proof.
  intros U P L leL zero ninf m lx word t (T1 & T2 & T3 & T4 & T5) w.
  assert (HL : forall w l s, looks_up lx t w l s -> irregular_lemma lx w t = Some (l, Some s)).
  { clear w. intros w l s H. unfold irregular_lemma. destruct H as [w l H|w l H|w l Hn H|w l H|w l Hn H].
    - rewrite (In_dget str_eqb str_eqb_ok _ _ _ T1 H). reflexivity.
    - rewrite (In_dget str_eqb str_eqb_ok _ _ _ T2 H). reflexivity.
    - destruct (dget str_eqb w (lx_pp lx)) as [x|] eqn:E; [exfalso; eapply Hn; eapply (dget_In str_eqb str_eqb_ok); exact E|].
      rewrite (In_dget str_eqb str_eqb_ok _ _ _ T3 H). reflexivity.
    - rewrite (In_dget str_eqb str_eqb_ok _ _ _ T4 H). reflexivity.
    - destruct (dget str_eqb w (lx_comparative lx)) as [x|] eqn:E; [exfalso; eapply Hn; eapply (dget_In str_eqb str_eqb_ok); exact E|].
      rewrite (In_dget str_eqb str_eqb_ok _ _ _ T5 H). reflexivity. }
  assert (HI : forall w l so, irregular_lemma lx w t = Some (l, so) -> exists s, so = Some s /\ looks_up lx t w l s).
  { clear w HL. intros w l so H. unfold irregular_lemma in H. destruct t; try discriminate.
    - destruct (dget str_eqb w (lx_comparative lx)) as [x|] eqn:E.
      + injection H as <- <-. eexists. split; [reflexivity|]. constructor. apply (dget_In str_eqb str_eqb_ok). exact E.
      + destruct (dget str_eqb w (lx_superlative lx)) as [x|] eqn:E'; [|discriminate]. injection H as <- <-. eexists. split; [reflexivity|]. constructor.
        * intros l' F. apply (dget_None str_eqb str_eqb_ok) in E. apply E. change w with (fst (w, l')). apply in_map. exact F.
        * apply (dget_In str_eqb str_eqb_ok). exact E'.
    - destruct (dget str_eqb w (lx_plural lx)) as [x|] eqn:E; [|discriminate]. injection H as <- <-. eexists. split; [reflexivity|]. constructor. apply (dget_In str_eqb str_eqb_ok). exact E.
    - destruct (dget str_eqb w (lx_pp lx)) as [x|] eqn:E.
      + injection H as <- <-. eexists. split; [reflexivity|]. constructor. apply (dget_In str_eqb str_eqb_ok). exact E.
      + destruct (dget str_eqb w (lx_preterit lx)) as [x|] eqn:E'; [|discriminate]. injection H as <- <-. eexists. split; [reflexivity|]. constructor 3.
        * intros l' F. apply (dget_None str_eqb str_eqb_ok) in E. apply E. change w with (fst (w, l')). apply in_map. exact F.
        * apply (dget_In str_eqb str_eqb_ok). exact E'. }
  assert (HS : forall l s, full_match w t = Some (l, s) -> is_special t w l s) by (intros l s; apply full_match_special).
  split; [|split].
  - intros l s (f & lm & Hin & Ew & El). unfold lemmatize. fold w. rewrite Ew.
    cbn in Hin. repeat (destruct Hin as [Hin|Hin]; [injection Hin as <- <- <- <-; rewrite El; reflexivity|]). destruct Hin.
  - intros l s Hn HT. unfold lemmatize. fold w. destruct (full_match w t) as [[l' s']|] eqn:E; [exfalso; exact (Hn _ _ (HS _ _ eq_refl))|]. rewrite (HL _ _ _ HT). reflexivity.
  - intros p b l s Hn Hnt Hp HT. unfold lemmatize. fold w. destruct (full_match w t) as [[l' s']|] eqn:E; [exfalso; exact (Hn _ _ (HS _ _ eq_refl))|].
    destruct (irregular_lemma lx w t) as [[l' s']|] eqn:E'; [exfalso; destruct (HI _ _ _ E') as (s'' & _ & F); exact (Hnt _ _ F)|].
    cbv zeta. rewrite Hp, (HL _ _ _ HT). reflexivity.
Qed.
Example C38_tables_witness : tables_ok w_lx /\ looks_up w_lx VERB (lit "went") (lit "go") PAST /\ w_lemmatize (lit "Went") VERB = Ok (lit "go", Some PAST) /\
  token_prefix (lit "undone") (lx_prefixes w_lx) = Some (lit "un", lit "done") /\ looks_up w_lx VERB (lit "done") (lit "do") PAST.
Proof.
  split; [repeat split; repeat constructor; cbn; intuition discriminate|]. split; [apply look_preterit; cbn; intuition discriminate|].
  split; [vm_compute; reflexivity|]. split; [vm_compute; reflexivity|]. apply look_pp. cbn. auto.
Qed.
Example C38_witness : w_lemmatize (lit "Making") VERB = Ok (lit "make", Some PROGRESSIVE) /\ w_lemmatize (lit "remaking") VERB = Ok (lit "remake", Some PROGRESSIVE) /\
  w_lemmatize (lit "undone") VERB = Ok (lit "undo", Some PAST) /\ w_lemmatize (lit "is") VERB = Ok (lit "be", Some THIRD_PERSON) /\
  w_lemmatize (lit "zzing") VERB = Ok (lit "zzing", None).
Proof. repeat split; vm_compute; reflexivity. Qed.

(** ** C71 *)
Theorem C71_regular_inflections : forall (U : udb) (P L : Type) (leP : P -> P -> bool) (leL : L -> L -> bool) zero ninf float_of_str (log : P -> res L) min_counts files m lx word t,
  udb_ok U -> total_order leL -> (forall x, leL ninf x = true) -> (forall p y, log p = Ok y -> leL y ninf = false) ->
  load_lm U P L leP float_of_str log min_counts files = Ok m ->
  Forall (fun c => u_space U c = false) word ->
  exists l s, lemmatize U P L leL zero ninf m lx word t = Ok (l, s) /\
    let w := lower U word in
    (is_special t w l s \/ (exists p b l', is_prefix (lx_prefixes lx) p /\ w = p ++ b /\ is_irregular lx t b l' s /\ l = p ++ l') \/
     (l = w /\ s = None) \/
     exists s', s = Some s' /\ inflected t w l s' /\ grounded (lx_prefixes lx) (fun x => lm_contains P L m x = true) t l).
Proof. intros U P L leP leL zero ninf fl lg mcs files m lx word t OK H1 H2 H3 H4 H5. pose proof (loaded_best _ _ _ _ _ zero _ _ _ _ _ _ H1 H2 H3 H4) as BO. exact (lemmatize_strong U OK P L leL zero ninf m BO lx word t H5). Qed.
Example C71_witness : w_lemmatize (lit "stopping") VERB = Ok (lit "stop", Some PROGRESSIVE) /\ udb_ok ascii_udb /\ Forall (fun c => u_space ascii_udb c = false) (lit "stopping") /\
  inflected VERB (lit "stopping") (lit "stop") PROGRESSIVE.
Proof.
  split; [vm_compute; reflexivity|]. split; [exact ascii_udb_ok|]. split; [repeat constructor|].
  apply (inflected_doubled VERB _ (lit "st") 111%N 112%N "ing"%string); [left; reflexivity|cbn; auto 10|cbn; auto 20|reflexivity].
Qed.

(** ** C39 *)
Theorem C39_prefix_order : forall prefixes w, Permutation PREFIXES prefixes ->
  token_prefix w prefixes = token_prefix w PREFIXES /\ (forall p b, token_prefix w prefixes = Some (p, b) -> w = p ++ b).
Proof. intros ps w H. split; [apply token_prefix_order; exact H|]. apply token_prefix_concat. Qed.
Theorem C39_lemmatize_order : forall (U : udb) (P L : Type) (leL : L -> L -> bool) zero ninf m lx lx' word t,
  same_lexicon lx lx' -> Permutation PREFIXES (lx_prefixes lx) -> Permutation PREFIXES (lx_prefixes lx') ->
  lemmatize U P L leL zero ninf m lx word t = lemmatize U P L leL zero ninf m lx' word t.
Proof. intros. apply lemmatize_ext; [assumption|]. intros w. rewrite (token_prefix_order _ w H0), (token_prefix_order _ w H1). reflexivity. Qed.
Example C39_witness : Permutation PREFIXES (rev PREFIXES) /\ rev PREFIXES <> PREFIXES /\ token_prefix (lit "discover") (rev PREFIXES) = Some (lit "dis", lit "cover").
Proof. split; [apply Permutation_rev|]. split; [discriminate|reflexivity]. Qed.

(** ** C40 *)
Theorem C40_standardize : forall (U : udb) (P L : Type) (leP : P -> P -> bool) (leL : L -> L -> bool) zero ninf float_of_str (log : P -> res L) min_counts files m token,
  total_order leL -> (forall x, leL ninf x = true) -> (forall p y, log p = Ok y -> leL y ninf = false) ->
  load_lm U P L leP float_of_str log min_counts files = Ok m ->
  exists r, standardize U P L leL zero ninf m token = Ok r /\
    (has_ngram P L zero ninf m token 5 = true -> r = token) /\
    (r = token \/ respelled U (fun x => lm_contains P L m x = true) token r).
Proof.
  intros U P L leP leL zero ninf fl lg mcs files m token H1 H2 H3 H4. pose proof (loaded_best _ _ _ _ _ zero _ _ _ _ _ _ H1 H2 H3 H4) as BO.
  destruct (standardize_spec U P L leL zero ninf m BO token) as (r & E & H5 & H6). eauto.
Qed.
Example C40_witness : standardize ascii_udb _ _ w_leL 0%Z None w_lm (lit "colours") = Ok (lit "colors") /\
  standardize ascii_udb _ _ w_leL 0%Z None w_lm (lit "theatre") = Ok (lit "theatre") /\ standardize ascii_udb _ _ w_leL 0%Z None w_lm (lit "honour") = Ok (lit "honour").
Proof. repeat split; vm_compute; reflexivity. Qed.

(** ** C41 *)
(** As stated, the property is false: a final e after a vowel gets ed. *)
Theorem C41_past_participle_refuted : exists (m : lm Z (option Z)) lemma r,
  past_participle Z (option Z) w_leL 0%Z None (fun _ => Ok [[]]) m [] lemma = Ok r /\
  ~ regular_participle (lm_prefers Z (option Z) w_leL 0%Z None (fun _ => Ok [[]]) m) lemma r.
Proof.
  exists w_lm, (lit "agree"), (lit "agreeed"). split; [vm_compute; reflexivity|]. intros H. remember (lit "agree") as l eqn:El. remember (lit "agreeed") as r eqn:Er.
  destruct H as [stem|stem c Hc|stem v c Hv Hc Hp|lemma Hne _ _].
  - change (lit "e") with [101%N] in El. change (lit "agree") with ([97; 103; 114; 101] ++ [101])%N in El. apply app_inj_tail in El. destruct El as [-> _]. discriminate.
  - apply (f_equal (fun l => last l 0%N)) in El. rewrite app_assoc in El. change (lit "y") with [121%N] in El. rewrite last_last in El. discriminate.
  - apply (f_equal (@length _)) in El. apply (f_equal (@length _)) in Er. rewrite !app_length in *. cbn in *. lia.
  - subst lemma. apply (Hne [97; 103; 114; 101]%N). reflexivity.
Qed.
(** What holds: the rules are followed except for a final e that does not come after a consonant or a consonant and i;
    and irregular forms come from the table. *)
Theorem C41_past_participle_partial : forall (P L : Type) (leL : L -> L -> bool) (zero : P) (ninf : L) (tokenize : option str -> res (list str)) (m : lm P L) table lemma no_tokens,
  total_order leL -> antisym leL -> tokenize None = Ok no_tokens ->
  exists r, past_participle P L leL zero ninf tokenize m table lemma = Ok r /\
    (forall p, dget str_eqb lemma table = Some p -> r = p) /\
    (dget str_eqb lemma table = None -> 
     (forall stem, lemma = stem ++ lit "e" -> exists stem' c, consonant c /\ (stem = stem' ++ [c] \/ stem = stem' ++ [c] ++ lit "i")) ->
     regular_participle (fun a b => best_token P L leL zero ninf tokenize m [b; a] None None = Ok (Some a)) lemma r).
Proof.
  intros P L leL zero ninf tokenize m table lemma tn H1 H2 H3. destruct (past_participle_spec P L leL zero ninf tokenize m H1 H2 tn H3 table lemma) as (r & E & H).
  exists r. split; [exact E|]. destruct (dget str_eqb lemma table) as [p|].
  - split; [|discriminate]. intros p' Ep. injection Ep as <-. exact H.
  - split; [discriminate|]. intros _. exact H.
Qed.
Example C41_witness : let pp w := past_participle Z (option Z) w_leL 0%Z None (fun _ => Ok [[]]) w_lm (lx_lemma_pp w_lx) (lit w) in
  pp "plan"%string = Ok (lit "planned") /\ pp "carry"%string = Ok (lit "carried") /\ pp "tie"%string = Ok (lit "tied") /\ pp "go"%string = Ok (lit "gone") /\ pp "work"%string = Ok (lit "worked").
Proof. repeat split; vm_compute; reflexivity. Qed.

Print Assumptions C37_suffix_fits.
Print Assumptions C38_lemma_origin.
Print Assumptions C38_without_attestation.
Print Assumptions C38_tables_first.
Print Assumptions C71_regular_inflections.
Print Assumptions C39_prefix_order.
Print Assumptions C39_lemmatize_order.
Print Assumptions C40_standardize.
Print Assumptions C41_past_participle_refuted.
Print Assumptions C41_past_participle_partial.
