(** Proofs about the normalization layer: the readings of verbs, nouns and adjectives. *)
From Coq Require Import Ascii String.
From Coq Require Import List NArith ZArith Arith Bool Lia Permutation.
From Verif Require Import PyBase Regex MUtils MTree MNgram MLangModel MNormal SNormal SLangModel LBase SUtils LText LRegex LLangModel LNormal LNormal2 LNormal4 LNormal5.
Import ListNotations.
Local Open Scope nat_scope.
Section Tags.
  Context (U : udb) (P L : Type) (leL : L -> L -> bool) (zero : P) (ninf : L) (m : lm P L) (lx : lexicon) (w : str).
  Notation reading := (reading U P L leL zero ninf m lx w).
  Lemma in_w c a b : rev w = a ++ c :: b -> In c w.
  Proof. intros E. apply in_rev. rewrite E. apply in_elt. Qed.
  Ltac endings Ew := unfold good_endings, e_or_nothing; cbn [map]; repeat apply Forall_cons; try apply Forall_nil; (split; [discriminate|split; [cbn; lia|]]);
    repeat (apply Forall_cons; [first [right; cbn; lia | left; revert Ew; lits; clear; intros Ew; apply in_rev; rewrite Ew; cbn [In]; tauto]|]); apply Forall_nil.
  Ltac clash0 := intros; subst; repeat closed_char; cbn [length] in *; first [lia|congruence|not_fit|closed_char|match goal with H : ?a = ?b |- _ => apply (f_equal (@length _)) in H; cbn [length] in H; lia end|match goal with Hx : forall x, _ = _ -> length x < 2 |- _ => specialize (Hx _ eq_refl); cbn [length] in *; lia end].
  Ltac clash := first [clash0|match goal with H : _ = _ \/ _ = _ |- _ => destruct H; solve [peel; clash0] end].
  Ltac hcases := let n := fresh "n" in let old := fresh "old" in let news := fresh "news" in let y := fresh "y" in let d := fresh "d" in let H := fresh "H" in let Hd := fresh "Hd" in let Hn := fresh "Hn" in let Er := fresh "Er" in let Hl := fresh "Hl" in let u := fresh "u" in let s := fresh "s" in let Hu := fresh "Hu" in let Hy := fresh "Hy" in let El := fresh "El" in let Ht := fresh "Ht" in let Ha := fresh "Ha" in let Hx := fresh "Hx" in let Hk := fresh "Hk" in
    intros [n old news y d H Hd Hn Er Hl|y Ht Hn Er Hl|y u d old s H Hy Hu Hd Er El|u d old s H Hu Hd Er El|y Ht Er Ha Hl Hd|Ht Er Hx Hk];
    [entries H; injection H as <- <- <-|try discriminate Ht|entries H; injection H as <- <-|entries H; injection H as <- <-|try discriminate Ht|try discriminate Ht].
  Ltac icases := let n := fresh "n" in let old := fresh "old" in let new := fresh "new" in let y := fresh "y" in let d := fresh "d" in let H := fresh "H" in let Hd := fresh "Hd" in let Hn := fresh "Hn" in let Er := fresh "Er" in let u := fresh "u" in let s := fresh "s" in let Hu := fresh "Hu" in
    intros ? ? [y n old new s H Hn Er|y d n old new s H Hd Hn Er|y u d old s H Hu Hd Er]; [entries H; injection H as <- <- <- <-|entries H; injection H as <- <- <- <-|entries H; injection H as <- <-].
  Ltac found := left; split; [|reflexivity]; first [eexists; split; [left; reflexivity|lits; reflexivity]|eexists; split; [right; left; reflexivity|lits; reflexivity]|eexists; split; [right; right; left; reflexivity|lits; reflexivity]].
  Ltac in_tab := unfold inflections, consonant_inflections, doubling; cbn [In]; solve [repeat first [left; reflexivity|right]].
  Ltac in_only := unfold only_lemmas, doubling; cbn [In]; solve [repeat first [left; reflexivity|right]].
  Ltac no_choice := let new := fresh "new" in let Hin := fresh "Hin" in intros new Hin; cbn [In] in Hin; repeat (destruct Hin as [<-|Hin]); [..|destruct Hin]; lits; let E := fresh "E" in intros E; peel; clash.
  Ltac by_ending n old news := right; eapply (rh_ending _ _ _ _ _ n old news); [in_only| | |lits; reflexivity|]; [eassumption|cbn [length] in *; lia|no_choice].
  Ltac by_doubled1 old := eapply (rh_doubled _ _ _ _ _ _ _ _ old); [in_only| | | |lits; reflexivity|reflexivity]; assumption.
  Ltac by_doubled := right; first [by_doubled1 "ing"%string|by_doubled1 "ed"%string|by_doubled1 "est"%string|by_doubled1 "er"%string].
  Ltac by_short1 old := eapply (rh_short _ _ _ _ _ _ _ old); [in_only| | |lits; reflexivity|reflexivity]; assumption.
  Ltac by_short := right; first [by_short1 "ing"%string|by_short1 "ed"%string|by_short1 "est"%string|by_short1 "er"%string].
  Ltac h1 := let e := fresh "e" in let He := fresh "He" in intros e He; cbn [In map e_or_nothing] in He; repeat (destruct He as [<-|He]); [..|destruct He]; lits; cbn [rev app] in *; hcases; lits; peel; try solve [clash].
  Ltac h2 hid := icases; lits; peel; try closed_char; first [found|hid|exfalso; not_fit|match goal with y : list char |- _ => destruct y; [by_short|exfalso; not_fit] end|match goal with y : list _ |- _ => destruct y; exfalso; [cbn [length] in *; lia|not_fit] end].
  Ltac start Ew := cbn [map e_or_nothing]; endings Ew.
  Lemma verb_reading rl s : rinflected VERB (rev w) rl s -> reading VERB s rl (first_rule (verb_rules U P L leL zero ninf m lx w) (w, None)).
  Proof.
    intros HI. unfold verb_rules.
    destruct (rule_after U P L leL zero ninf m lx w VERB (lit "icking") 2 [lit "ic"] PROGRESSIVE ltac:(discriminate) ltac:(lia)) as [(x & c & Hc & Hl & Ew & E)|[N0 E]]; [rewrite (first_some _ _ _ _ E)|rewrite (first_none _ _ _ E); clear E].
    { eapply (reading_intro _ _ _ _ _ _ _ _ _ _ _ _ (rev (lit "icking"))); [reflexivity|exact Ew|endings Ew|exact HI|intros e He; cbn [In map e_or_nothing] in He; repeat (destruct He as [<-|He]); [..|destruct He]; [rewrite Ew; apply (ri_consonant _ _ x c 2 "icking"%string "ic"%string PROGRESSIVE); [in_tab|assumption|cbn [length]; lia|reflexivity]]| |]; clear HI E; rewrite Ew in *; lits; [h1|h2 ltac:(by_ending 2 "icking"%string ["ic"]%string)]. }
    destruct (rule_after U P L leL zero ninf m lx w VERB (lit "icked") 2 [lit "ic"] PAST ltac:(discriminate) ltac:(lia)) as [(x & c & Hc & Hl & Ew & E)|[N1 E]]; [rewrite (first_some _ _ _ _ E)|rewrite (first_none _ _ _ E); clear E].
    { eapply (reading_intro _ _ _ _ _ _ _ _ _ _ _ _ (rev (lit "icked"))); [reflexivity|exact Ew|endings Ew|exact HI|intros e He; cbn [In map e_or_nothing] in He; repeat (destruct He as [<-|He]); [..|destruct He]; [rewrite Ew; apply (ri_consonant _ _ x c 2 "icked"%string "ic"%string PAST); [in_tab|assumption|cbn [length]; lia|reflexivity]]| |]; clear HI E; rewrite Ew in *; lits; [h1|h2 ltac:(by_ending 2 "icked"%string ["ic"]%string)]. }
    destruct (rule_doubled U P L leL zero ninf m lx w VERB (lit "ing") PROGRESSIVE ltac:(discriminate)) as [(x & v & c & Hx & Hv & Hc & Ew & E)|[N2 E]]; [rewrite (first_some _ _ _ _ E)|rewrite (first_none _ _ _ E); clear E].
    { eapply (reading_intro _ _ _ _ _ _ _ _ _ _ _ _ (rev (lit "ing") ++ [c; c])); [reflexivity|exact Ew|endings Ew|exact HI|intros e He; cbn [In map e_or_nothing] in He; repeat (destruct He as [<-|He]); [..|destruct He]; [rewrite Ew; apply (ri_doubled _ _ x v c "ing"%string PROGRESSIVE); [in_tab|assumption|assumption|reflexivity]|rewrite Ew; apply (ri_plain _ _ (c :: c :: v :: x) 3 "ing"%string ""%string PROGRESSIVE); [in_tab|cbn [length]; lia|reflexivity]]| |]; clear HI E; rewrite Ew in *; lits; [h1|h2 ltac:(by_doubled)]. }
    destruct (rule_last U P L leL zero ninf m lx w VERB (lit "ing") 3 e_or_nothing PROGRESSIVE ltac:(discriminate) ltac:(lia)) as [(x & c & Hl & Ew & E)|[N3 E]]; [rewrite (first_some _ _ _ _ E)|rewrite (first_none _ _ _ E); clear E].
    { eapply (reading_intro _ _ _ _ _ _ _ _ _ _ _ _ (rev (lit "ing") ++ [c])); [reflexivity|exact Ew|endings Ew|exact HI|intros e He; cbn [In map e_or_nothing] in He; repeat (destruct He as [<-|He]); [..|destruct He]; [rewrite Ew; apply (ri_plain _ _ (c :: x) 3 "ing"%string ""%string PROGRESSIVE); [in_tab|cbn [length]; lia|reflexivity]|rewrite Ew; apply (ri_plain _ _ (c :: x) 3 "ing"%string "e"%string PROGRESSIVE); [in_tab|cbn [length]; lia|reflexivity]]| |]; clear HI E; rewrite Ew in *; lits; [h1|h2 ltac:(by_short)]. }
    destruct (rule_after U P L leL zero ninf m lx w VERB (lit "icks") 2 [lit "ic"] THIRD_PERSON ltac:(discriminate) ltac:(lia)) as [(x & c & Hc & Hl & Ew & E)|[N4 E]]; [rewrite (first_some _ _ _ _ E)|rewrite (first_none _ _ _ E); clear E].
    { eapply (reading_intro _ _ _ _ _ _ _ _ _ _ _ _ (rev (lit "icks"))); [reflexivity|exact Ew|endings Ew|exact HI|intros e He; cbn [In map e_or_nothing] in He; repeat (destruct He as [<-|He]); [..|destruct He]; [rewrite Ew; apply (ri_consonant _ _ x c 2 "icks"%string "ic"%string THIRD_PERSON); [in_tab|assumption|cbn [length]; lia|reflexivity]]| |]; clear HI E; rewrite Ew in *; lits; [h1|h2 ltac:(by_ending 2 "icks"%string ["ic"]%string)]. }
    destruct (rule_doubled U P L leL zero ninf m lx w VERB (lit "ed") PAST ltac:(discriminate)) as [(x & v & c & Hx & Hv & Hc & Ew & E)|[N5 E]]; [rewrite (first_some _ _ _ _ E)|rewrite (first_none _ _ _ E); clear E].
    { eapply (reading_intro _ _ _ _ _ _ _ _ _ _ _ _ (rev (lit "ed") ++ [c; c])); [reflexivity|exact Ew|endings Ew|exact HI|intros e He; cbn [In map e_or_nothing] in He; repeat (destruct He as [<-|He]); [..|destruct He]; [rewrite Ew; apply (ri_doubled _ _ x v c "ed"%string PAST); [in_tab|assumption|assumption|reflexivity]|rewrite Ew; apply (ri_plain _ _ (c :: c :: v :: x) 2 "ed"%string ""%string PAST); [in_tab|cbn [length]; lia|reflexivity]]| |]; clear HI E; rewrite Ew in *; lits; [h1|h2 ltac:(by_doubled)]. }
    destruct (rule_after U P L leL zero ninf m lx w VERB (lit "ied") 2 [lit "y"] PAST ltac:(discriminate) ltac:(lia)) as [(x & c & Hc & Hl & Ew & E)|[N6 E]]; [rewrite (first_some _ _ _ _ E)|rewrite (first_none _ _ _ E); clear E].
    { eapply (reading_intro _ _ _ _ _ _ _ _ _ _ _ _ (rev (lit "ied"))); [reflexivity|exact Ew|endings Ew|exact HI|intros e He; cbn [In map e_or_nothing] in He; repeat (destruct He as [<-|He]); [..|destruct He]; [rewrite Ew; apply (ri_consonant _ _ x c 2 "ied"%string "y"%string PAST); [in_tab|assumption|cbn [length]; lia|reflexivity]]| |]; clear HI E; rewrite Ew in *; lits; [h1|h2 ltac:(by_ending 2 "ied"%string ["y"]%string)]. }
    destruct (rule_after U P L leL zero ninf m lx w VERB (lit "ies") 1 [lit "y"; lit "ie"] THIRD_PERSON ltac:(discriminate) ltac:(lia)) as [(x & c & Hc & Hl & Ew & E)|[N7 E]]; [rewrite (first_some _ _ _ _ E)|rewrite (first_none _ _ _ E); clear E].
    { eapply (reading_intro _ _ _ _ _ _ _ _ _ _ _ _ (rev (lit "ies"))); [reflexivity|exact Ew|endings Ew|exact HI|intros e He; cbn [In map e_or_nothing] in He; repeat (destruct He as [<-|He]); [..|destruct He]; [rewrite Ew; apply (ri_consonant _ _ x c 1 "ies"%string "y"%string THIRD_PERSON); [in_tab|assumption|cbn [length]; lia|reflexivity]|rewrite Ew; apply (ri_consonant _ _ x c 1 "ies"%string "ie"%string THIRD_PERSON); [in_tab|assumption|cbn [length]; lia|reflexivity]]| |]; clear HI E; rewrite Ew in *; lits; [h1|h2 ltac:(by_ending 1 "ies"%string ["y"; "ie"]%string)]. }
    destruct (rule_last U P L leL zero ninf m lx w VERB (lit "ed") 2 e_or_nothing PAST ltac:(discriminate) ltac:(lia)) as [(x & c & Hl & Ew & E)|[N8 E]]; [rewrite (first_some _ _ _ _ E)|rewrite (first_none _ _ _ E); clear E].
    { eapply (reading_intro _ _ _ _ _ _ _ _ _ _ _ _ (rev (lit "ed") ++ [c])); [reflexivity|exact Ew|endings Ew|exact HI|intros e He; cbn [In map e_or_nothing] in He; repeat (destruct He as [<-|He]); [..|destruct He]; [rewrite Ew; apply (ri_plain _ _ (c :: x) 2 "ed"%string ""%string PAST); [in_tab|cbn [length]; lia|reflexivity]|rewrite Ew; apply (ri_plain _ _ (c :: x) 2 "ed"%string "e"%string PAST); [in_tab|cbn [length]; lia|reflexivity]]| |]; clear HI E; rewrite Ew in *; lits; [h1|h2 ltac:(by_short)]. }
    destruct (rule_last U P L leL zero ninf m lx w VERB (lit "es") 2 e_or_nothing THIRD_PERSON ltac:(discriminate) ltac:(lia)) as [(x & c & Hl & Ew & E)|[N9 E]]; [rewrite (first_some _ _ _ _ E)|rewrite (first_none _ _ _ E); clear E].
    { eapply (reading_intro _ _ _ _ _ _ _ _ _ _ _ _ (rev (lit "es") ++ [c])); [reflexivity|exact Ew|endings Ew|exact HI|intros e He; cbn [In map e_or_nothing] in He; repeat (destruct He as [<-|He]); [..|destruct He]; [rewrite Ew; apply (ri_plain _ _ (c :: x) 2 "es"%string ""%string THIRD_PERSON); [in_tab|cbn [length]; lia|reflexivity]|rewrite Ew; apply (ri_plain _ _ (c :: x) 2 "es"%string "e"%string THIRD_PERSON); [in_tab|cbn [length]; lia|reflexivity]]| |]; clear HI E; rewrite Ew in *; lits; [h1|h2 ltac:(by_short)]. }
    destruct (rule_last U P L leL zero ninf m lx w VERB (lit "s") 2 [[]] THIRD_PERSON ltac:(discriminate) ltac:(lia)) as [(x & c & Hl & Ew & E)|[N10 E]]; [rewrite (first_some _ _ _ _ E)|rewrite (first_none _ _ _ E); clear E].
    { eapply (reading_intro _ _ _ _ _ _ _ _ _ _ _ _ (rev (lit "s") ++ [c])); [reflexivity|exact Ew|endings Ew|exact HI|intros e He; cbn [In map e_or_nothing] in He; repeat (destruct He as [<-|He]); [..|destruct He]; [rewrite Ew; apply (ri_plain _ _ (c :: x) 2 "s"%string ""%string THIRD_PERSON); [in_tab|cbn [length]; lia|reflexivity]]| |]; clear HI E; rewrite Ew in *; lits; [h1|h2 ltac:(by_short)]. }
    exfalso. destruct HI as [y n old new s H Hn Er|y d n old new s H Hd Hn Er|y u d old s H Hu Hd Er]; [entries H; injection H as <- <- <- <-|entries H; injection H as <- <- <- <-|entries H; injection H as <- <-]; rewrite Er in *; lits.
    all: try (destruct y as [|? y]; [cbn [length] in *; lia|]). all: not_fit.
  Qed.
  (* nouns *)
  Ltac by_ves := right; eapply rh_ves; [reflexivity| |lits; reflexivity|]; [assumption|no_choice].
  Lemma ends_ss : endswith w (lit "ss") = true <-> exists x, rev w = 115%N :: 115%N :: x.
  Proof.
    rewrite endswith_iff. split; intros (x & E).
    - exists (rev x). rewrite E, rev_app_distr. reflexivity.
    - exists (rev x). apply rev_inj. rewrite E, rev_app_distr, rev_involutive. reflexivity.
  Qed.
  Lemma noun_reading rl s : rinflected NOUN (rev w) rl s -> reading NOUN s rl (first_rule (noun_rules U P L leL zero ninf m lx w) (w, None)).
  Proof.
    intros HI. unfold noun_rules.
    destruct (rule_plain U P L leL zero ninf m lx w NOUN (lit "a") 5 [lit "on"] PLURAL ltac:(discriminate) ltac:(lia)) as [(x & Hl & Ew & E)|[N0 E]]; [rewrite (first_some _ _ _ _ E)|rewrite (first_none _ _ _ E); clear E].
    { eapply (reading_intro _ _ _ _ _ _ _ _ _ _ _ _ (rev (lit "a"))); [reflexivity|exact Ew|endings Ew|exact HI|intros e He; cbn [In map e_or_nothing] in He; repeat (destruct He as [<-|He]); [..|destruct He]; [rewrite Ew; apply (ri_plain _ _ x 5 "a"%string "on"%string PLURAL); [in_tab|cbn [length]; lia|reflexivity]]| |]; clear HI E; rewrite Ew in *; lits; [h1|h2 ltac:(fail)]. }
    destruct (rule_after U P L leL zero ninf m lx w NOUN (lit "ieves") 1 [lit "ief"] PLURAL ltac:(discriminate) ltac:(lia)) as [(x & c & Hc & Hl & Ew & E)|[N1 E]]; [rewrite (first_some _ _ _ _ E)|rewrite (first_none _ _ _ E); clear E].
    { eapply (reading_intro _ _ _ _ _ _ _ _ _ _ _ _ (rev (lit "ieves"))); [reflexivity|exact Ew|endings Ew|exact HI|intros e He; cbn [In map e_or_nothing] in He; repeat (destruct He as [<-|He]); [..|destruct He]; [rewrite Ew; apply (ri_consonant _ _ x c 1 "ieves"%string "ief"%string PLURAL); [in_tab|assumption|cbn [length]; lia|reflexivity]]| |]; clear HI E; rewrite Ew in *; lits; [h1|h2 ltac:(by_ending 1 "ieves"%string ["ief"]%string)]. }
    destruct (rule_plain U P L leL zero ninf m lx w NOUN (lit "i") 4 [lit "us"] PLURAL ltac:(discriminate) ltac:(lia)) as [(x & Hl & Ew & E)|[N2 E]]; [rewrite (first_some _ _ _ _ E)|rewrite (first_none _ _ _ E); clear E].
    { eapply (reading_intro _ _ _ _ _ _ _ _ _ _ _ _ (rev (lit "i"))); [reflexivity|exact Ew|endings Ew|exact HI|intros e He; cbn [In map e_or_nothing] in He; repeat (destruct He as [<-|He]); [..|destruct He]; [rewrite Ew; apply (ri_plain _ _ x 4 "i"%string "us"%string PLURAL); [in_tab|cbn [length]; lia|reflexivity]]| |]; clear HI E; rewrite Ew in *; lits; [h1|h2 ltac:(fail)]. }
    destruct (rule_after U P L leL zero ninf m lx w NOUN (lit "ies") 2 [lit "y"; lit "ie"] PLURAL ltac:(discriminate) ltac:(lia)) as [(x & c & Hc & Hl & Ew & E)|[N3 E]]; [rewrite (first_some _ _ _ _ E)|rewrite (first_none _ _ _ E); clear E].
    { eapply (reading_intro _ _ _ _ _ _ _ _ _ _ _ _ (rev (lit "ies"))); [reflexivity|exact Ew|endings Ew|exact HI|intros e He; cbn [In map e_or_nothing] in He; repeat (destruct He as [<-|He]); [..|destruct He]; [rewrite Ew; apply (ri_consonant _ _ x c 2 "ies"%string "y"%string PLURAL); [in_tab|assumption|cbn [length]; lia|reflexivity]|rewrite Ew; apply (ri_consonant _ _ x c 2 "ies"%string "ie"%string PLURAL); [in_tab|assumption|cbn [length]; lia|reflexivity]]| |]; clear HI E; rewrite Ew in *; lits; [h1|h2 ltac:(by_ending 2 "ies"%string ["y"; "ie"]%string)]. }
    destruct (rule_plain U P L leL zero ninf m lx w NOUN (lit "ves") 2 [lit "f"; lit "fe"; lit "ve"] PLURAL ltac:(discriminate) ltac:(lia)) as [(x & Hl & Ew & E)|[N4 E]]; [rewrite (first_some _ _ _ _ E)|rewrite (first_none _ _ _ E); clear E].
    { eapply (reading_intro _ _ _ _ _ _ _ _ _ _ _ _ (rev (lit "ves"))); [reflexivity|exact Ew|endings Ew|exact HI|intros e He; cbn [In map e_or_nothing] in He; repeat (destruct He as [<-|He]); [..|destruct He]; [rewrite Ew; apply (ri_plain _ _ x 2 "ves"%string "f"%string PLURAL); [in_tab|cbn [length]; lia|reflexivity]|rewrite Ew; apply (ri_plain _ _ x 2 "ves"%string "fe"%string PLURAL); [in_tab|cbn [length]; lia|reflexivity]|rewrite Ew; apply (ri_plain _ _ x 2 "ves"%string "ve"%string PLURAL); [in_tab|cbn [length]; lia|reflexivity]]| |]; clear HI E; rewrite Ew in *; lits; [h1|h2 ltac:(by_ves)]. }
    destruct (rule_plain U P L leL zero ninf m lx w NOUN (lit "men") 2 [lit "man"] PLURAL ltac:(discriminate) ltac:(lia)) as [(x & Hl & Ew & E)|[N5 E]]; [rewrite (first_some _ _ _ _ E)|rewrite (first_none _ _ _ E); clear E].
    { eapply (reading_intro _ _ _ _ _ _ _ _ _ _ _ _ (rev (lit "men"))); [reflexivity|exact Ew|endings Ew|exact HI|intros e He; cbn [In map e_or_nothing] in He; repeat (destruct He as [<-|He]); [..|destruct He]; [rewrite Ew; apply (ri_plain _ _ x 2 "men"%string "man"%string PLURAL); [in_tab|cbn [length]; lia|reflexivity]]| |]; clear HI E; rewrite Ew in *; lits; [h1|h2 ltac:(fail)]. }
    destruct (rule_last U P L leL zero ninf m lx w NOUN (lit "es") 2 [[]; lit "e"; lit "is"] PLURAL ltac:(discriminate) ltac:(lia)) as [(x & c & Hl & Ew & E)|[N6 E]]; [rewrite (first_some _ _ _ _ E)|rewrite (first_none _ _ _ E); clear E].
    { eapply (reading_intro _ _ _ _ _ _ _ _ _ _ _ _ (rev (lit "es") ++ [c])); [reflexivity|exact Ew|endings Ew|exact HI|intros e He; cbn [In map e_or_nothing] in He; repeat (destruct He as [<-|He]); [..|destruct He]; [rewrite Ew; apply (ri_plain _ _ (c :: x) 2 "es"%string ""%string PLURAL); [in_tab|cbn [length]; lia|reflexivity]|rewrite Ew; apply (ri_plain _ _ (c :: x) 2 "es"%string "e"%string PLURAL); [in_tab|cbn [length]; lia|reflexivity]|rewrite Ew; apply (ri_plain _ _ (c :: x) 2 "es"%string "is"%string PLURAL); [in_tab|cbn [length]; lia|reflexivity]]| |]; clear HI E; rewrite Ew in *; lits; [h1|h2 ltac:(fail)]. }
    destruct (endswith w (lit "ss") || has_ngram P L zero ninf m (w ++ lit "es") 1) eqn:G.
    - rewrite first_none by (cbv beta; unfold on_start; destruct (token_start w (lit "s") 2); reflexivity). cbn [first_rule].
      right. split; [|left; reflexivity]. apply orb_true_iff in G. rewrite ends_ss in G.
      destruct HI as [y n old new s H Hn Er|y d n old new s H Hd Hn Er|y u d old s H Hu Hd Er]; [entries H; injection H as <- <- <- <-|entries H; injection H as <- <- <- <-|entries H; injection H as <- <-]; rewrite Er in *; lits.
      all: try solve [exfalso; try (destruct y as [|? y]; [cbn [length] in *; lia|]); not_fit].
      apply rh_s; [reflexivity|reflexivity| |].
      + intros x ->. destruct x as [|a x]; [cbn; lia|]. destruct x as [|a' x]; [cbn; lia|]. exfalso. not_fit.
      + destruct G as [(x & E)|G]; [left; injection E as ->; eauto|right; exact G].
    - destruct (rule_last U P L leL zero ninf m lx w NOUN (lit "s") 2 [[]] PLURAL ltac:(discriminate) ltac:(lia)) as [(x & c & Hl & Ew & E)|[N7 E]]; [rewrite (first_some _ _ _ _ E)|rewrite (first_none _ _ _ E); clear E].
      + apply orb_false_iff in G. destruct G as [G1 G2]. eapply (reading_intro _ _ _ _ _ _ _ _ _ _ _ _ (rev (lit "s") ++ [c])); [reflexivity|exact Ew|endings Ew|exact HI|intros e He; cbn [In map e_or_nothing] in He; repeat (destruct He as [<-|He]); [..|destruct He]; [rewrite Ew; apply (ri_plain _ _ (c :: x) 2 "s"%string ""%string PLURAL); [in_tab|cbn [length]; lia|reflexivity]]| |].
        * intros e [<-|[]] Hh. assert (G1' : forall x, rev w <> 115%N :: 115%N :: x) by (intros z Ez; assert (endswith w (lit "ss") = true) by (apply ends_ss; eauto); congruence). clear HI E. rewrite Ew in *; lits. revert Hh. hcases; lits; peel; try solve [clash].
          destruct Hk as [(z & Ez)|Hk]; [|congruence]. cbn in Ez. peel. eapply G1'. reflexivity.
        * clear HI E. rewrite Ew in *; lits. h2 ltac:(fail).
      + exfalso. destruct HI as [y n old new s H Hn Er|y d n old new s H Hd Hn Er|y u d old s H Hu Hd Er]; [entries H; injection H as <- <- <- <-|entries H; injection H as <- <- <- <-|entries H; injection H as <- <-]; rewrite Er in *; lits.
        all: try (destruct y as [|? y]; [cbn [length] in *; lia|]). all: not_fit.
  Qed.
  Lemma adj_reading rl s : rinflected ADJ (rev w) rl s -> reading ADJ s rl (first_rule (adj_rules U P L leL zero ninf m lx w) (w, None)).
  Proof.
    intros HI. unfold adj_rules.
    destruct (rule_doubled U P L leL zero ninf m lx w ADJ (lit "est") SUPERLATIVE ltac:(discriminate)) as [(x & v & c & Hx & Hv & Hc & Ew & E)|[N0 E]]; [rewrite (first_some _ _ _ _ E)|rewrite (first_none _ _ _ E); clear E].
    { eapply (reading_intro _ _ _ _ _ _ _ _ _ _ _ _ (rev (lit "est") ++ [c; c])); [reflexivity|exact Ew|endings Ew|exact HI|intros e He; cbn [In map e_or_nothing] in He; repeat (destruct He as [<-|He]); [..|destruct He]; [rewrite Ew; apply (ri_doubled _ _ x v c "est"%string SUPERLATIVE); [in_tab|assumption|assumption|reflexivity]|rewrite Ew; apply (ri_plain _ _ (c :: c :: v :: x) 3 "est"%string ""%string SUPERLATIVE); [in_tab|cbn [length]; lia|reflexivity]]| |]; clear HI E; rewrite Ew in *; lits; [h1|h2 ltac:(by_doubled)]. }
    destruct (rule_doubled U P L leL zero ninf m lx w ADJ (lit "er") COMPARATIVE ltac:(discriminate)) as [(x & v & c & Hx & Hv & Hc & Ew & E)|[N1 E]]; [rewrite (first_some _ _ _ _ E)|rewrite (first_none _ _ _ E); clear E].
    { eapply (reading_intro _ _ _ _ _ _ _ _ _ _ _ _ (rev (lit "er") ++ [c; c])); [reflexivity|exact Ew|endings Ew|exact HI|intros e He; cbn [In map e_or_nothing] in He; repeat (destruct He as [<-|He]); [..|destruct He]; [rewrite Ew; apply (ri_doubled _ _ x v c "er"%string COMPARATIVE); [in_tab|assumption|assumption|reflexivity]|rewrite Ew; apply (ri_plain _ _ (c :: c :: v :: x) 3 "er"%string ""%string COMPARATIVE); [in_tab|cbn [length]; lia|reflexivity]]| |]; clear HI E; rewrite Ew in *; lits; [h1|h2 ltac:(by_doubled)]. }
    destruct (rule_after U P L leL zero ninf m lx w ADJ (lit "iest") 2 [lit "y"] SUPERLATIVE ltac:(discriminate) ltac:(lia)) as [(x & c & Hc & Hl & Ew & E)|[N2 E]]; [rewrite (first_some _ _ _ _ E)|rewrite (first_none _ _ _ E); clear E].
    { eapply (reading_intro _ _ _ _ _ _ _ _ _ _ _ _ (rev (lit "iest"))); [reflexivity|exact Ew|endings Ew|exact HI|intros e He; cbn [In map e_or_nothing] in He; repeat (destruct He as [<-|He]); [..|destruct He]; [rewrite Ew; apply (ri_consonant _ _ x c 2 "iest"%string "y"%string SUPERLATIVE); [in_tab|assumption|cbn [length]; lia|reflexivity]]| |]; clear HI E; rewrite Ew in *; lits; [h1|h2 ltac:(by_ending 2 "iest"%string ["y"]%string)]. }
    destruct (rule_last U P L leL zero ninf m lx w ADJ (lit "est") 3 e_or_nothing SUPERLATIVE ltac:(discriminate) ltac:(lia)) as [(x & c & Hl & Ew & E)|[N3 E]]; [rewrite (first_some _ _ _ _ E)|rewrite (first_none _ _ _ E); clear E].
    { eapply (reading_intro _ _ _ _ _ _ _ _ _ _ _ _ (rev (lit "est") ++ [c])); [reflexivity|exact Ew|endings Ew|exact HI|intros e He; cbn [In map e_or_nothing] in He; repeat (destruct He as [<-|He]); [..|destruct He]; [rewrite Ew; apply (ri_plain _ _ (c :: x) 3 "est"%string ""%string SUPERLATIVE); [in_tab|cbn [length]; lia|reflexivity]|rewrite Ew; apply (ri_plain _ _ (c :: x) 3 "est"%string "e"%string SUPERLATIVE); [in_tab|cbn [length]; lia|reflexivity]]| |]; clear HI E; rewrite Ew in *; lits; [h1|h2 ltac:(by_short)]. }
    destruct (rule_after U P L leL zero ninf m lx w ADJ (lit "ier") 2 [lit "y"] COMPARATIVE ltac:(discriminate) ltac:(lia)) as [(x & c & Hc & Hl & Ew & E)|[N4 E]]; [rewrite (first_some _ _ _ _ E)|rewrite (first_none _ _ _ E); clear E].
    { eapply (reading_intro _ _ _ _ _ _ _ _ _ _ _ _ (rev (lit "ier"))); [reflexivity|exact Ew|endings Ew|exact HI|intros e He; cbn [In map e_or_nothing] in He; repeat (destruct He as [<-|He]); [..|destruct He]; [rewrite Ew; apply (ri_consonant _ _ x c 2 "ier"%string "y"%string COMPARATIVE); [in_tab|assumption|cbn [length]; lia|reflexivity]]| |]; clear HI E; rewrite Ew in *; lits; [h1|h2 ltac:(by_ending 2 "ier"%string ["y"]%string)]. }
    destruct (str_in w (lx_adjs lx)) eqn:G.
    - rewrite first_none by (cbv beta; unfold on_start; destruct (token_start w (lit "er") 3); reflexivity). cbn [first_rule].
      assert (G' : In w (lx_adjs lx)) by (apply str_in_In; exact G).
      right. split; [|left; reflexivity]. destruct HI as [y n old new s H Hn Er|y d n old new s H Hd Hn Er|y u d old s H Hu Hd Er]; [entries H; injection H as <- <- <- <-|entries H; injection H as <- <- <- <-|entries H; injection H as <- <-]; rewrite Er in *; lits.
      all: try solve [exfalso; try (destruct y as [|? y]; [cbn [length] in *; lia|]); not_fit].
      all: try solve [destruct y; [by_short1 "er"%string|exfalso; not_fit]].
      all: apply (rh_adj _ _ _ _ _ y); [reflexivity|reflexivity|exact G'|auto|intros z v c Hz Hv Hc ->; not_fit].
    - destruct (rule_last U P L leL zero ninf m lx w ADJ (lit "er") 3 e_or_nothing COMPARATIVE ltac:(discriminate) ltac:(lia)) as [(x & c & Hl & Ew & E)|[N7 E]]; [rewrite (first_some _ _ _ _ E)|rewrite (first_none _ _ _ E); clear E].
      + assert (G' : ~ In w (lx_adjs lx)) by (rewrite <- str_in_In; congruence). eapply (reading_intro _ _ _ _ _ _ _ _ _ _ _ _ (rev (lit "er") ++ [c])); [reflexivity|exact Ew|endings Ew|exact HI|intros e He; cbn [In map e_or_nothing] in He; repeat (destruct He as [<-|He]); [..|destruct He]; [rewrite Ew; apply (ri_plain _ _ (c :: x) 3 "er"%string ""%string COMPARATIVE); [in_tab|cbn [length]; lia|reflexivity]|rewrite Ew; apply (ri_plain _ _ (c :: x) 3 "er"%string "e"%string COMPARATIVE); [in_tab|cbn [length]; lia|reflexivity]]| |]; clear HI E; rewrite Ew in *; lits; [h1|h2 ltac:(by_short)].
      + exfalso. destruct HI as [y n old new s H Hn Er|y d n old new s H Hd Hn Er|y u d old s H Hu Hd Er]; [entries H; injection H as <- <- <- <-|entries H; injection H as <- <- <- <-|entries H; injection H as <- <-]; rewrite Er in *; lits.
        all: try (destruct y as [|? y]; [cbn [length] in *; lia|]). all: not_fit.
  Qed.
End Tags.
