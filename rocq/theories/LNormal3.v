(** Proofs about the normalization layer: spellings and past participles. *)
From Coq Require Import Ascii String.
From Coq Require Import List NArith ZArith Arith Bool Lia.
From Verif Require Import PyBase Regex MUtils MTree MNgram MLangModel MNormal SNormal SLangModel LBase SUtils LText LRegex LLangModel LNormal.
Import ListNotations.
Local Open Scope nat_scope.

(** patterns without groups and lookaheads leave the captures alone *)
Fixpoint capless (r : re) : bool :=
  match r with
  | Seq a b | Alt a b => capless a && capless b
  | Star _ a => capless a
  | Grp _ _ | Look _ _ => false
  | _ => true
  end.
Lemma capless_caps U ic r st st' : capless r = true -> mrel U ic r st st' -> caps st' = caps st.
Proof.
  intros H M. induction M; cbn in H; try discriminate; try reflexivity; try (apply andb_true_iff in H; destruct H as [H1 H2]); auto.
  - rewrite IHM2, IHM1 by assumption. reflexivity.
  - rewrite IHM2, IHM1 by assumption. reflexivity.
Qed.
Lemma capless_word s : capless (word s) = true.
Proof. induction s as [|c [|d s] IH]; [reflexivity|reflexivity|]. cbn [word capless]. exact IH. Qed.
Lemma capless_alts l : Forall (fun r => capless r = true) l -> capless (alts l) = true.
Proof. induction 1 as [|r l Hr _ IH]; [reflexivity|]. destruct l; [exact Hr|]. cbn [alts capless]. rewrite Hr. exact IH. Qed.
Lemma capless_words l : capless (alts (map word l)) = true.
Proof. apply capless_alts. apply Forall_map. apply Forall_forall. intros s _. apply capless_word. Qed.

Section Spell.
  Context (U : udb).
  Lemma cc_ci c d : cset_match U true (cc c) d = true -> In c (u_variants U d).
  Proof.
    unfold cset_match, cc. cbn. rewrite orb_false_r. intros H.
    assert (E : existsb (fun x => (c <=? x) && (x <=? c))%N (u_variants U d) = true) by (destruct (existsb _ _) eqn:E; [reflexivity|discriminate H]).
    apply existsb_exists in E. destruct E as (x & Hx & Ex). apply andb_true_iff in Ex. rewrite !N.leb_le in Ex. replace c with x by lia. exact Hx.
  Qed.
  Lemma lang_ci s x : lang U true (word s) x -> same_ci U s x.
  Proof. intros H. apply lang_word in H. induction H; constructor; auto. apply cc_ci. assumption. Qed.
  Lemma lang_one_of l x : l <> [] -> lang U true (alts (map word (map lit l))) x -> one_of U l x.
  Proof.
    intros Hl H. apply lang_alts in H; [|destruct l; [congruence|discriminate]]. destruct H as (r & Hr & H). rewrite map_map in Hr. apply in_map_iff in Hr. destruct Hr as (s & <- & Hs). exists s. split; [exact Hs|apply lang_ci; exact H].
  Qed.
  Lemma split_token_spec token middles endings start mid fin : middles <> [] -> endings <> [] ->
    split_token U token (map lit middles) (map lit endings) = Some (start, mid, fin) ->
    token = start ++ mid ++ fin /\ one_of U middles mid /\ one_of U endings fin.
  Proof.
    intros Hm He. unfold split_token. destruct (fullmatch U true _ token) as [st|] eqn:E; [|discriminate]. destruct (1 <? length (Regex.group st 1)); [|discriminate].
    intros H. injection H as <- <- <-. apply fullmatch_some in E. destruct E as [M Ea]. unfold split_pattern in M. cbn [seqs] in M.
    inversion M as [| |r1 r2 s0 s1 s2 M1 M2| | | | | | | | | | |]; subst. inversion M2 as [| |r1 r2 s0' s2' s3 M3 M4| | | | | | | | | | |]; subst. clear M M2.
    inversion M1 as [| | | | | | |n1 r1 t0 t1 N1| | | | | |]; subst. inversion M3 as [| | | | | | |n2 r2 t0 t2 N2| | | | | |]; subst. inversion M4 as [| | | | | | |n3 r3 t0 t3 N3| | | | | |]; subst.
    assert (C1 : caps t1 = []) by exact (capless_caps _ _ (plus (Chr (cls [az]))) _ _ eq_refl N1). pose proof (capless_caps _ _ _ _ _ (capless_words _) N2) as C2. pose proof (capless_caps _ _ _ _ _ (capless_words _) N3) as C3.
    apply mrel_lang in N1. destruct N1 as (x1 & A1 & B1 & L1). apply mrel_lang in N2. destruct N2 as (x2 & A2 & B2 & L2). apply mrel_lang in N3. destruct N3 as (x3 & A3 & B3 & L3).
    pose proof (consumed_eq _ _ _ B1) as K1. pose proof (consumed_eq _ _ _ B2) as K2. pose proof (consumed_eq _ _ _ B3) as K3. clear B1 B2 B3 M1 M3 M4.
    rewrite K1 in *. rewrite K2 in *. rewrite K3 in *. cbn [aft bef caps] in *.
    unfold Regex.group. cbn [caps dget Nat.eqb]. rewrite C3. cbn [dget Nat.eqb]. rewrite C2. cbn [dget Nat.eqb].
    cbn [aft bef] in *.
    split; [rewrite A1, A2, A3, Ea, app_nil_r; reflexivity|]. split; apply lang_one_of; assumption.
  Qed.

  Context (P L : Type) (leL : L -> L -> bool) (zero : P) (ninf : L) (m : lm P L) (BO : best_ok P L leL zero ninf m).
  Notation attested x := (lm_contains P L m x = true).
  Definition spell_ok (token : str) (x : res (option str)) : Prop := exists o, x = Ok o /\ forall r, o = Some r -> r = token \/ respelled U (fun x => attested x) token r.
  Lemma spelling_rule_ok token middles endings variants finish : middles <> [] -> endings <> [] ->
    (forall start mid fin, token = start ++ mid ++ fin -> 2 < length start -> one_of U middles mid -> one_of U endings fin ->
       exists vs, variants start mid fin = Ok vs /\ forall v, In v vs -> attested v -> respelled U (fun x => attested x) token (finish v fin)) ->
    spell_ok token (spelling_rule U P L leL zero ninf m token (map lit middles) (map lit endings) variants finish).
  Proof.
    intros Hm He H. unfold spelling_rule. destruct (split_token U token _ _) as [[[start mid] fin]|] eqn:E; [|exists None; split; [reflexivity|discriminate]].
    apply split_token_spec in E; [|assumption|assumption]. destruct E as (Et & Om & Oe). destruct (Nat.ltb_spec 2 (length start)) as [Hl|]; [|exists None; split; [reflexivity|discriminate]].
    destruct (H start mid fin Et Hl Om Oe) as (vs & -> & Hv). cbn [rbind]. destruct (BO vs) as [[_ ->]|(x & Hx & -> & Ha)]; cbn [rbind]; [exists None; split; [reflexivity|discriminate]|].
    exists (Some (finish x fin)). split; [reflexivity|]. intros r E. injection E as <-. right. apply Hv; assumption.
  Qed.
  Lemma digraph_ok token d : In d ["ae"; "oe"]%string -> spell_ok token (digraph_rule P L leL zero ninf m token (lit d)).
  Proof.
    intros Hd. unfold digraph_rule. destruct (Nat.ltb_spec 4 (length token)) as [Hl|]; cbn [andb]; [|exists None; split; [reflexivity|discriminate]].
    destruct (contains (lit d) token); [|exists None; split; [reflexivity|discriminate]].
    destruct (BO [replace token (lit d) (lit "e"); token]) as [[_ ->]|(x & Hx & -> & Ha)]; [exists None; split; [reflexivity|discriminate]|].
    exists (Some x). split; [reflexivity|]. intros r E. injection E as <-. destruct Hx as [<-|[<-|[]]]; [right|left; reflexivity]. apply respell_digraph; assumption.
  Qed.
  Lemma slice1_app2 (s : str) x c : slice None (Some (-1)%Z) (s ++ [x; c]) = s ++ [x].
  Proof. rewrite (app_assoc s [x] [c] : s ++ [x; c] = (s ++ [x]) ++ [c]). apply slice_last1. Qed.
  Lemma slice1_app3 (s : str) y x c : slice None (Some (-1)%Z) (s ++ [y; x; c]) = s ++ [y; x].
  Proof. rewrite (app_assoc s [y; x] [c] : s ++ [y; x; c] = (s ++ [y; x]) ++ [c]). apply slice_last1. Qed.
  Lemma std_rules_ok token : Forall (fun rule => spell_ok token (rule tt)) (std_rules U P L leL zero ninf m token).
  Proof.
    unfold std_rules. repeat match goal with |- Forall _ (_ :: _) => constructor | |- Forall _ [] => constructor end.
    - apply (spelling_rule_ok token ["our"; "or"]%string ["ing"; "ed"; "s"; ""]%string); [discriminate|discriminate|]. intros start mid fin Et Hl Om Oe. eexists. split; [reflexivity|].
      intros v [<-|[<-|[]]] Ha; rewrite <- app_assoc; eapply respell_or; try eassumption; cbn; auto.
    - apply (spelling_rule_ok token ["ys"; "yz"; "is"; "iz"]%string ["ations"; "ation"; "ers"; "er"; "ing"; "ed"; "es"; "e"]%string); [discriminate|discriminate|]. intros start mid fin Et Hl Om Oe.
      assert (Hc : exists c mid', mid = c :: mid'). { destruct Om as (s & Hs & Hci). destruct mid as [|c mid']; [|eauto]. exfalso. inversion Hci. cbn in Hs. repeat (destruct Hs as [<-|Hs]; [discriminate|]). destruct Hs. }
      destruct Hc as (c & mid' & Em). exists [start ++ [c] ++ lit "ze"; start ++ [c] ++ lit "se"]. split; [rewrite Em; reflexivity|].
      intros v [<-|[<-|[]]] Ha.
      + cbn [app lit]. change (lit "ze") with [122%N; 101%N] in *. cbn [app] in *. rewrite slice1_app3. rewrite <- app_assoc. apply (respell_ize U _ token start mid fin c mid' [122%N]); try assumption; cbn; auto.
      + cbn [app lit]. change (lit "se") with [115%N; 101%N] in *. cbn [app] in *. rewrite slice1_app3. rewrite <- app_assoc. apply (respell_ize U _ token start mid fin c mid' [115%N]); try assumption; cbn; auto.
    - apply (spelling_rule_ok token ["c"; "s"]%string ["ives"; "ive"; "es"; "e"]%string); [discriminate|discriminate|]. intros start mid fin Et Hl Om Oe. eexists. split; [reflexivity|].
      intros v [<-|[<-|[]]] Ha.
      + change (lit "se") with [115%N; 101%N] in *. rewrite slice1_app2. rewrite <- app_assoc. apply (respell_ce U _ token start mid fin [115%N]); try assumption; cbn; auto.
      + change (lit "ce") with [99%N; 101%N] in *. rewrite slice1_app2. rewrite <- app_assoc. apply (respell_ce U _ token start mid fin [99%N]); try assumption; cbn; auto.
    - apply (spelling_rule_ok token ["og"; "ogue"]%string ["s"; ""]%string); [discriminate|discriminate|]. intros start mid fin Et Hl Om Oe. eexists. split; [reflexivity|].
      intros v [<-|[<-|[]]] Ha; rewrite <- app_assoc; eapply respell_ogue; try eassumption; cbn; auto.
    - apply (spelling_rule_ok token ["el"; "ell"]%string ["ing"; "ers"; "ed"; "er"]%string); [discriminate|discriminate|]. intros start mid fin Et Hl Om Oe. eexists. split; [reflexivity|].
      intros v [<-|[<-|[]]] Ha; eapply respell_ell; try eassumption; cbn; auto.
    - apply digraph_ok. cbn. auto.
    - apply digraph_ok. cbn. auto.
  Qed.
  Lemma first_spelling_ok token rules : Forall (fun rule => spell_ok token (rule tt)) rules ->
    exists r, first_spelling rules token = Ok r /\ (r = token \/ respelled U (fun x => attested x) token r).
  Proof.
    induction 1 as [|f rules (o & E & Ho) _ IH]; cbn [first_spelling]; [eauto|]. rewrite E. cbn [rbind]. destruct o as [y|]; [|exact IH]. exists y. auto.
  Qed.
  Theorem standardize_spec token : exists r, standardize U P L leL zero ninf m token = Ok r /\ (r = token \/ respelled U (fun x => attested x) token r) /\
    (has_ngram P L zero ninf m token 5 = true -> r = token).
  Proof.
    unfold standardize. destruct (has_ngram P L zero ninf m token 5) eqn:E; [exists token; auto|].
    destruct (first_spelling_ok token _ (std_rules_ok token)) as (r & H1 & H2). exists r. split; [exact H1|]. split; [exact H2|discriminate].
  Qed.
  Lemma respelled_attested token r : respelled U (fun x => attested x) token r -> exists v, attested v.
  Proof. intros H. inversion H; eauto. Qed.
End Spell.

(** ** Past participles *)
Section Participle.
  Context (P L : Type) (leL : L -> L -> bool) (zero : P) (ninf : L) (tokenize : option str -> res (list str)) (m : lm P L).
  Context (TL : total_order leL) (AL : antisym leL) (tn : list str) (Htn : tokenize None = Ok tn).
  Notation best_token := (best_token P L leL zero ninf tokenize m).
  Definition lm_prefers (a b : str) : Prop := best_token [b; a] None None = Ok (Some a).
  Lemma best_two a b : best_token [a; b] None None = Ok None \/ best_token [a; b] None None = Ok (Some a) \/ best_token [a; b] None None = Ok (Some b).
  Proof.
    destruct (best_token_spec leL zero ninf tokenize TL AL m [a; b] None None tn tn Htn Htn) as [[_ H]|(_ & pre & x & post & s & E & H & _)]; [left; exact H|right].
    destruct pre as [|p [|q pre]]; [left|right|destruct pre; discriminate]; cbn in E; [injection E as -> _|injection E as _ -> _]; exact H.
  Qed.
  Lemma vowel_not_consonant c : vowel c -> consonant c -> False.
  Proof. unfold vowel, consonant. intros H1 H2. cbn in H1, H2. intuition (subst; discriminate). Qed.
  Lemma index3 (q : str) x y z : index (q ++ [x; y; z]) (-3) = Ok x.
  Proof.
    change (-3)%Z with (- Z.of_nat 3)%Z. rewrite index_neg by lia. rewrite app_length. cbn [length]. destruct (Nat.ltb_spec (length q + 3) 3); [lia|].
    replace (length q + 3 - 3) with (length q) by lia. rewrite nth_error_app2, Nat.sub_diag by lia. reflexivity.
  Qed.
  Lemma index2 (q : str) y z : index (q ++ [y; z]) (-2) = Ok y.
  Proof.
    change (-2)%Z with (- Z.of_nat 2)%Z. rewrite index_neg by lia. rewrite app_length. cbn [length]. destruct (Nat.ltb_spec (length q + 2) 2); [lia|].
    replace (length q + 2 - 2) with (length q) by lia. rewrite nth_error_app2, Nat.sub_diag by lia. reflexivity.
  Qed.
  Lemma index1 (q : str) y z : index (q ++ [y; z]) (-1) = Ok z.
  Proof. rewrite (app_assoc q [y] [z] : q ++ [y; z] = (q ++ [y]) ++ [z]). apply index_last. Qed.
  Lemma two_last (q : str) x y : forall s c d, q ++ [x; y] = s ++ [c; d] -> s = q /\ c = x /\ d = y.
  Proof.
    intros s c d H. rewrite (app_assoc q [x] [y] : q ++ [x; y] = (q ++ [x]) ++ [y]), (app_assoc s [c] [d] : s ++ [c; d] = (s ++ [c]) ++ [d]) in H.
    apply app_inj_tail in H. destruct H as [H ->]. apply app_inj_tail in H. destruct H as [-> ->]. auto.
  Qed.
  Lemma endswith_e (q : str) x : endswith (q ++ [x]) (lit "e") = N.eqb x 101.
  Proof.
    destruct (N.eqb_spec x 101) as [->|Hx]; [apply endswith_iff; exists q; reflexivity|]. destruct (endswith _ _) eqn:E; [|reflexivity].
    apply endswith_iff in E. destruct E as (r & E). change (lit "e") with [101%N] in E. apply app_inj_tail in E. destruct E as [_ E]. congruence.
  Qed.
  Lemma reg_e prefers stem l : l = stem ++ [101%N] -> regular_participle prefers l (l ++ lit "d").
  Proof. intros ->. rewrite <- app_assoc. exact (pp_e prefers stem). Qed.
  Lemma reg_y prefers stem c : consonant c -> regular_participle prefers (stem ++ [c; 121%N]) (slice None (Some (-1)%Z) (stem ++ [c; 121%N]) ++ lit "ied").
  Proof. intros H. rewrite slice1_app2. rewrite <- app_assoc. exact (pp_y prefers stem c H). Qed.
  (** not covered: a final e that does not follow a consonant, or a consonant and i *)
  Definition e_after_consonant (lemma : str) : Prop := forall stem, lemma = stem ++ lit "e" ->
    exists stem' c, consonant c /\ (stem = stem' ++ [c] \/ stem = stem' ++ [c] ++ lit "i").
  Definition two_branch (lemma : str) : res str :=
    let! c2 := index lemma (-2) in
    let! c1 := index lemma (-1) in
    if char_in c2 CONSONANTS && N.eqb c1 121%N then Ok (slice None (Some (-1)%Z) lemma ++ lit "ied")
    else if char_in c2 CONSONANTS && endswith lemma (lit "e") then Ok (lemma ++ lit "d")
    else if char_in c2 VOWELS && char_in c1 CONSONANTS then
      let! best := best_token [lemma ++ lit "ed"; lemma ++ [c1] ++ lit "ed"] None None in
      match best with Some (c :: b) => Ok (c :: b) | _ => Ok (lemma ++ lit "ed") end
    else Ok (lemma ++ lit "ed").
  Lemma two_spec (lemma s : str) (y z : N) : lemma = s ++ [y; z] -> (forall stem c, consonant c -> lemma <> stem ++ [c] ++ lit "ie") ->
    exists r, two_branch lemma = Ok r /\ (e_after_consonant lemma -> regular_participle lm_prefers lemma r).
  Proof.
    intros EL Hie. assert (EL' : lemma = (s ++ [y]) ++ [z]) by (rewrite <- app_assoc; exact EL).
    unfold two_branch. assert (I2 : index lemma (-2) = Ok y) by (rewrite EL, index2; reflexivity). assert (I1 : index lemma (-1) = Ok z) by (rewrite EL, index1; reflexivity). rewrite I2, I1. cbn [rbind].
    destruct (char_in y CONSONANTS && N.eqb z 121) eqn:Ey.
    { apply andb_true_iff in Ey. destruct Ey as [Ey Ez]. apply N.eqb_eq in Ez. subst z. eexists. split; [reflexivity|]. intros _. rewrite EL. apply reg_y. apply char_in_In. exact Ey. }
    replace (endswith lemma (lit "e")) with (N.eqb z 101) by (rewrite EL', endswith_e; reflexivity).
    destruct (char_in y CONSONANTS && N.eqb z 101) eqn:Ee.
    { apply andb_true_iff in Ee. destruct Ee as [Ey' Ee]. apply N.eqb_eq in Ee. subst z. eexists. split; [reflexivity|]. intros _. eapply reg_e. exact EL'. }
    assert (NotE : e_after_consonant lemma -> z <> 101%N).
    { intros HE ->. destruct (HE (s ++ [y]) EL') as (s' & c & Hc & [E|E]).
      - apply app_inj_tail in E. destruct E as [_ ->]. apply char_in_In in Hc. change (lit "qwrtpsdfghjklzxcvbnm") with CONSONANTS in Hc. rewrite Hc in Ee. discriminate.
      - apply (Hie s' c Hc). rewrite EL', E. rewrite <- !app_assoc. reflexivity. }
    assert (Rest : (forall stem v c, vowel v -> consonant c -> lemma = stem ++ [v; c] -> ~ lm_prefers (stem ++ [v; c; c] ++ lit "ed") (stem ++ [v; c] ++ lit "ed")) ->
       e_after_consonant lemma -> regular_participle lm_prefers lemma (lemma ++ lit "ed")).
    { intros Hd He. apply pp_ed; [| |exact Hd].
      - intros stem E. rewrite EL' in E. apply app_inj_tail in E. destruct E as [_ E]. exact (NotE He E).
      - intros stem c Hc E. rewrite EL in E. apply two_last in E. destruct E as (_ & -> & E). apply char_in_In in Hc. change (lit "qwrtpsdfghjklzxcvbnm") with CONSONANTS in Hc. rewrite Hc, <- E in Ey. discriminate. }
    destruct (char_in y VOWELS && char_in z CONSONANTS) eqn:Ev.
    - apply andb_true_iff in Ev. destruct Ev as [Ev Ec]. apply char_in_In in Ev, Ec.
      assert (A1 : lemma ++ lit "ed" = s ++ [y; z] ++ lit "ed") by (rewrite EL, <- app_assoc; reflexivity).
      assert (A2 : lemma ++ [z] ++ lit "ed" = s ++ [y; z; z] ++ lit "ed") by (rewrite EL, <- app_assoc; reflexivity).
      destruct (best_two (lemma ++ lit "ed") (lemma ++ [z] ++ lit "ed")) as [HB|[HB|HB]];
        (let b := type of HB in match b with ?x = _ => match goal with |- context [MLangModel.best_token P L leL zero ninf tokenize m ?l None None] => change (MLangModel.best_token P L leL zero ninf tokenize m l None None) with x end end); rewrite HB; cbn [rbind].
      + eexists. split; [reflexivity|]. intros He. apply Rest; [|exact He]. intros stem v c _ _ E HP. rewrite EL in E. apply two_last in E. destruct E as (-> & -> & ->). assert (HP' : best_token [lemma ++ lit "ed"; lemma ++ [z] ++ lit "ed"] None None = Ok (Some (lemma ++ [z] ++ lit "ed"))) by (rewrite A1, A2; exact HP). pose proof (eq_trans (eq_sym HB) HP') as K. discriminate K.
      + exists (lemma ++ lit "ed"). split; [destruct lemma; reflexivity|]. intros He. apply Rest; [|exact He]. intros stem v c _ _ E HP. rewrite EL in E. apply two_last in E. destruct E as (-> & -> & ->).
        assert (HP' : best_token [lemma ++ lit "ed"; lemma ++ [z] ++ lit "ed"] None None = Ok (Some (lemma ++ [z] ++ lit "ed"))) by (rewrite A1, A2; exact HP). pose proof (eq_trans (eq_sym HB) HP') as K. clear HP HP'. injection K as HP. apply (f_equal (@length _)) in HP. rewrite !app_length in HP. cbn in HP. lia.
      + exists (lemma ++ [z] ++ lit "ed"). split; [destruct lemma; reflexivity|]. intros He. assert (R : regular_participle lm_prefers (s ++ [y; z]) (s ++ [y; z; z] ++ lit "ed")) by (apply pp_doubled; [exact Ev|exact Ec|]; rewrite A1, A2 in HB; exact HB). rewrite A2, EL. exact R.
    - eexists. split; [reflexivity|]. apply Rest. intros stem v c Hv Hc E. rewrite EL in E. apply two_last in E. destruct E as (-> & -> & ->). apply char_in_In in Hv, Hc.
      change (lit "eyuioa") with VOWELS in Hv. change (lit "qwrtpsdfghjklzxcvbnm") with CONSONANTS in Hc. rewrite Hv, Hc in Ev. discriminate.
  Qed.
  Theorem past_participle_spec table lemma : exists r, past_participle P L leL zero ninf tokenize m table lemma = Ok r /\
    match dget str_eqb lemma table with Some p => r = p | None => e_after_consonant lemma -> regular_participle lm_prefers lemma r end.
  Proof.
    unfold past_participle. destruct (dget str_eqb lemma table) as [p|]; [eauto|]. cbv zeta.
    destruct (Nat.ltb_spec 2 (length lemma)) as [H2|H2].
    - assert (EL : exists (q : str) (x y z : N), lemma = q ++ [x; y; z]).
      { destruct (snoc lemma) as (q2 & z & ->); [destruct lemma; [cbn in H2; lia|discriminate]|]. rewrite app_length in H2. cbn in H2.
        destruct (snoc q2) as (q1 & y & ->); [destruct q2; [cbn in H2; lia|discriminate]|]. rewrite app_length in H2. cbn in H2.
        destruct (snoc q1) as (q & x & ->); [destruct q1; [cbn in H2; lia|discriminate]|]. exists q, x, y, z. rewrite <- !app_assoc. reflexivity. }
      destruct EL as (q & x & y & z & EL). assert (I3 : index lemma (-3) = Ok x) by (rewrite EL, index3; reflexivity). rewrite I3. cbn [rbind].
      assert (EL2 : lemma = (q ++ [x]) ++ [y; z]) by (rewrite <- app_assoc; exact EL).
      destruct (char_in x CONSONANTS && endswith lemma (lit "ie")) eqn:E3; cbn [rbind].
      + eexists. split; [reflexivity|]. intros _. apply andb_true_iff in E3. destruct E3 as [Ex Ee]. apply endswith_iff in Ee. destruct Ee as (r & Er).
        apply (reg_e _ (r ++ [105%N])). rewrite <- app_assoc. exact Er.
      + destruct (Nat.ltb_spec 1 (length lemma)); [|lia]. apply (two_spec lemma _ y z EL2). intros stem c Hc E. rewrite EL2 in E. change ([c] ++ lit "ie") with ([c] ++ [105%N; 101%N]) in E. rewrite app_assoc in E.
        apply two_last in E. destruct E as (E & E1 & E2). apply app_inj_tail in E. destruct E as [_ ->]. apply char_in_In in Hc. change (lit "qwrtpsdfghjklzxcvbnm") with CONSONANTS in Hc. rewrite Hc in E3. cbn [andb] in E3.
        assert (endswith lemma (lit "ie") = true) by (apply endswith_iff; exists (q ++ [x]); rewrite EL2, <- E1, <- E2; reflexivity). congruence.
    - cbn [rbind]. destruct (Nat.ltb_spec 1 (length lemma)) as [H1|H1].
      + destruct lemma as [|y [|z [|? ?]]]; cbn in H1, H2; try lia. apply (two_spec [y; z] [] y z eq_refl). intros stem c _ E. apply (f_equal (@length _)) in E. rewrite !app_length in E. cbn in E. lia.
      + eexists. split; [reflexivity|]. intros He. apply pp_ed.
        * intros stem E. destruct (He stem E) as (s' & c & _ & [->| ->]); subst lemma; rewrite ?app_length in H1; cbn in H1; lia.
        * intros stem c _ E. subst lemma. rewrite ?app_length in H1. cbn in H1. lia.
        * intros stem v c _ _ E. subst lemma. rewrite ?app_length in H1. cbn in H1. lia.
  Qed.
End Participle.
