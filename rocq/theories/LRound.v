(** Past participles and the lemmatizer. *)
From Coq Require Import Ascii String.
From Coq Require Import List NArith ZArith Arith Bool Lia Permutation.
From Verif Require Import PyBase Regex MUtils MTree MNgram MLangModel MNormal SNormal SRound SLangModel LBase SUtils LText LUdb LRegex LLangModel LNormal LNormal2 LNormal3 LNormal4 LNormal5.
Import ListNotations.
Local Open Scope nat_scope.

Section Forms.
  Context (P L : Type) (leL : L -> L -> bool) (zero : P) (ninf : L) (tokenize : option str -> res (list str)) (m : lm P L).
  Context (TL : total_order leL) (AL : antisym leL) (tn : list str) (Htn : tokenize None = Ok tn).
  Inductive made (q : str) (x y z : char) (r : str) : Prop :=
  | made_ie : consonant x -> y = 105%N -> z = 101%N -> r = q ++ [x; y; z] ++ lit "d" -> made q x y z r
  | made_y : consonant y -> z = 121%N -> r = q ++ [x; y] ++ lit "ied" -> made q x y z r
  | made_e : consonant y -> z = 101%N -> r = q ++ [x; y; z] ++ lit "d" -> made q x y z r
  | made_ed : ~ (consonant y /\ (z = 121%N \/ z = 101%N)) -> ~ (consonant x /\ y = 105%N /\ z = 101%N) -> r = q ++ [x; y; z] ++ lit "ed" -> made q x y z r
  | made_doubled : vowel y -> consonant z -> r = q ++ [x; y; z; z] ++ lit "ed" -> made q x y z r.
  Lemma two_made (q : str) (x y z : char) r : ~ (consonant x /\ y = 105%N /\ z = 101%N) -> two_branch P L leL zero ninf tokenize m (q ++ [x; y; z]) = Ok r -> made q x y z r.
  Proof.
    intros NX. pose (lemma := q ++ [x; y; z]). assert (EL : lemma = (q ++ [x]) ++ [y; z]) by (unfold lemma; rewrite <- app_assoc; reflexivity). assert (EL' : lemma = (q ++ [x; y]) ++ [z]) by (unfold lemma; rewrite <- app_assoc; reflexivity).
    change (q ++ [x; y; z]) with lemma. unfold two_branch. assert (I2 : index lemma (-2) = Ok y) by (rewrite EL, index2; reflexivity). assert (I1 : index lemma (-1) = Ok z) by (rewrite EL', index_last; reflexivity). rewrite I2, I1. cbn [rbind].
    assert (Hc : forall c, char_in c CONSONANTS = true <-> consonant c) by (intros c; apply char_in_In). assert (Hv : forall c, char_in c VOWELS = true <-> vowel c) by (intros c; apply char_in_In).
    replace (endswith lemma (lit "e")) with (N.eqb z 101) by (rewrite EL', endswith_e; reflexivity).
    destruct (char_in y CONSONANTS) eqn:Ey; cbn [andb].
    - apply Hc in Ey. destruct (N.eqb_spec z 121) as [Ez|Ez].
      + intros E. injection E as <-. apply made_y; [exact Ey|exact Ez|]. rewrite EL, slice1_app2. rewrite <- !app_assoc. reflexivity.
      + destruct (N.eqb_spec z 101) as [Ez'|Ez'].
        * intros E. injection E as <-. apply made_e; [exact Ey|exact Ez'|]. unfold lemma. rewrite <- app_assoc. reflexivity.
        * destruct (char_in y VOWELS) eqn:Ev; [exfalso; apply Hv in Ev; exact (vowel_not_consonant _ Ev Ey)|]. cbn [andb]. intros E. injection E as <-. apply made_ed; [tauto|exact NX|]. unfold lemma. rewrite <- app_assoc. reflexivity.
    - assert (Hny : ~ (consonant y /\ (z = 121%N \/ z = 101%N))) by (intros [F _]; apply Hc in F; congruence). assert (D : made q x y z (lemma ++ lit "ed")) by (apply made_ed; [exact Hny|exact NX|unfold lemma; rewrite <- app_assoc; reflexivity]).
      destruct (char_in y VOWELS && char_in z CONSONANTS) eqn:Ev; [|intros E; injection E as <-; exact D].
      apply andb_true_iff in Ev. destruct Ev as [Ev Ez]. apply Hv in Ev. apply Hc in Ez.
      destruct (best_two P L leL zero ninf tokenize m TL AL tn Htn (lemma ++ lit "ed") (lemma ++ [z] ++ lit "ed")) as [HB|[HB|HB]];
        (let b := type of HB in match b with ?x = _ => match goal with |- context [MLangModel.best_token P L leL zero ninf tokenize m ?l None None] => change (MLangModel.best_token P L leL zero ninf tokenize m l None None) with x end end); rewrite HB; cbn [rbind]; intros E.
      + injection E as <-. exact D.
      + destruct lemma; injection E as <-; exact D.
      + assert (Er : r = lemma ++ [z] ++ lit "ed") by (destruct lemma; injection E as <-; reflexivity). subst r. apply made_doubled; [exact Ev|exact Ez|]. unfold lemma. rewrite <- app_assoc. reflexivity.
  Qed.
  Lemma pp_made table (q : str) (x y z : char) r : dget str_eqb (q ++ [x; y; z]) table = None -> past_participle P L leL zero ninf tokenize m table (q ++ [x; y; z]) = Ok r -> made q x y z r.
  Proof.
    intros Ht. unfold past_participle. rewrite Ht. cbv zeta. rewrite app_length. cbn [length]. replace (2 <? length q + 3) with true by (symmetry; apply Nat.ltb_lt; lia). replace (1 <? length q + 3) with true by (symmetry; apply Nat.ltb_lt; lia).
    rewrite index3. cbn [rbind]. destruct (char_in x CONSONANTS && endswith (q ++ [x; y; z]) (lit "ie")) eqn:E; cbn [rbind].
    - apply andb_true_iff in E. destruct E as [E1 E2]. apply char_in_In in E1. apply endswith_iff in E2. destruct E2 as (s & E2). change (lit "ie") with [105%N; 101%N] in E2. rewrite (app_assoc q [x] [y; z] : q ++ [x; y; z] = (q ++ [x]) ++ [y; z]) in E2. apply two_last in E2. destruct E2 as (_ & Ey & Ez).
      intros F. injection F as <-. apply made_ie; [exact E1|symmetry; exact Ey|symmetry; exact Ez|rewrite <- app_assoc; reflexivity].
    - intros F. apply two_made; [|exact F]. intros (Hx & -> & ->). apply char_in_In in Hx. change (lit "qwrtpsdfghjklzxcvbnm") with CONSONANTS in Hx. rewrite Hx in E. cbn [andb] in E.
      assert (K : endswith (q ++ [x; 105%N; 101%N]) (lit "ie") = true) by (apply endswith_iff; exists (q ++ [x]); rewrite <- app_assoc; reflexivity). exact (eq_true_false_abs _ K E).
  Qed.
End Forms.

(** the participle is a regular form, hidden when the verb is lost *)
Lemma made_inflected q x y z r : made q x y z r -> inflected VERB r (q ++ [x; y; z]) PAST.
Proof.
  intros [H1 -> -> ->|H1 -> ->|H1 -> ->|_ _ ->|H1 H2 ->].
  - assert (K : inflected VERB (q ++ [x; 105%N; 101%N] ++ lit "d") ((q ++ [x; 105%N]) ++ lit "e") PAST) by (eapply inflected_plain with (old := "ed"%string) (n := 2); [cbn; auto 20|rewrite app_length; cbn; lia|rewrite <- app_assoc; reflexivity]).
    rewrite <- app_assoc in K. exact K.
  - assert (K : inflected VERB (q ++ [x; y] ++ lit "ied") (((q ++ [x]) ++ [y]) ++ lit "y") PAST) by (eapply inflected_consonant with (old := "ied"%string) (n := 2); [cbn; auto 20|exact H1|rewrite !app_length; cbn; lia|rewrite <- !app_assoc; reflexivity]).
    rewrite <- !app_assoc in K. exact K.
  - assert (K : inflected VERB (q ++ [x; y; 101%N] ++ lit "d") ((q ++ [x; y]) ++ lit "e") PAST) by (eapply inflected_plain with (old := "ed"%string) (n := 2); [cbn; auto 20|rewrite app_length; cbn; lia|rewrite <- app_assoc; reflexivity]).
    rewrite <- app_assoc in K. exact K.
  - assert (K : inflected VERB (q ++ [x; y; z] ++ lit "ed") ((q ++ [x; y; z]) ++ lit "") PAST) by (eapply inflected_plain with (old := "ed"%string) (n := 2); [cbn; auto 20|rewrite app_length; cbn; lia|rewrite <- app_assoc; reflexivity]).
    change (lit "") with (@nil N) in K. rewrite app_nil_r in K. exact K.
  - assert (K : inflected VERB (q ++ [x; y; z; z] ++ lit "ed") ((q ++ [x]) ++ [y; z]) PAST) by (eapply inflected_doubled with (old := "ed"%string); [cbn; auto 20|exact H1|exact H2|rewrite <- !app_assoc; reflexivity]).
    rewrite <- !app_assoc in K. exact K.
Qed.
(** lost verbs, read from the end *)
Definition rlost (rl : str) : Prop :=
  (exists x c e, x <> [] /\ consonant c /\ In e ["i"; "ie"; "ick"; "icke"]%string /\ rl = rev (lit e) ++ c :: x) \/
  (exists x v c, x <> [] /\ vowel v /\ consonant c /\ rl = 101%N :: c :: c :: v :: x).
Lemma lost_rev l : lost l <-> rlost (rev l).
Proof.
  split.
  - intros [(s & c & e & Hs & Hc & He & ->)|(s & v & c & Hs & Hv & Hc & ->)].
    + left. exists (rev s), c, e. split; [intros F; apply Hs, rev_inj; exact F|]. split; [exact Hc|]. split; [exact He|]. rewrite !rev_app_distr. cbn [rev app]. rewrite <- app_assoc. reflexivity.
    + right. exists (rev s), v, c. split; [intros F; apply Hs, rev_inj; exact F|]. split; [exact Hv|]. split; [exact Hc|]. rewrite !rev_app_distr. reflexivity.
  - intros [(s & c & e & Hs & Hc & He & E)|(s & v & c & Hs & Hv & Hc & E)].
    + left. exists (rev s), c, e. split; [intros F; apply Hs, rev_inj; exact F|]. split; [exact Hc|]. split; [exact He|]. apply rev_inj. rewrite E, !rev_app_distr, rev_involutive. cbn [rev app]. rewrite <- app_assoc. reflexivity.
    + right. exists (rev s), v, c. split; [intros F; apply Hs, rev_inj; exact F|]. split; [exact Hv|]. split; [exact Hc|]. apply rev_inj. rewrite E, !rev_app_distr, rev_involutive. reflexivity.
Qed.

Lemma app_neq_nil {A} (a : list A) b : a ++ [b] <> [].
Proof. destruct a; discriminate. Qed.
(** the participle is hidden exactly when the verb is lost *)
Lemma made_lost ks ka q x y z r : made q x y z r -> (rhidden ks ka VERB (rev r) (rev (q ++ [x; y; z])) <-> rlost (rev (q ++ [x; y; z]))).
Proof.
  intros M. rewrite rev_app_distr. cbn [rev app]. set (rq := rev q).
  assert (C : consonant x /\ y = 105%N /\ z = 101%N /\ rev r = 100%N :: z :: y :: x :: rq \/ consonant y /\ z = 121%N /\ rev r = [100; 101; 105]%N ++ y :: x :: rq \/
    consonant y /\ z = 101%N /\ rev r = 100%N :: z :: y :: x :: rq \/ (~ (consonant y /\ (z = 121%N \/ z = 101%N)) /\ ~ (consonant x /\ y = 105%N /\ z = 101%N)) /\ rev r = 100%N :: 101%N :: z :: y :: x :: rq \/
    vowel y /\ consonant z /\ rev r = 100%N :: 101%N :: z :: z :: y :: x :: rq).
  { destruct M as [H1 H2 H3 ->|H1 H2 ->|H1 H2 ->|H1 H2 ->|H1 H2 ->]; [left|right;left|right;right;left|right;right;right;left|right;right;right;right]; repeat (split; [assumption|]); try split; auto; rewrite !rev_app_distr; reflexivity. }
  clearbody rq. clear M q. split; intros H.
  - destruct H as [n old news p c H Hc Hn Er Hl|p Ht Hn Er Hl|p v c old s H Hp Hv Hc Er El|v c old s H Hv Hc Er El|p Ht Er Ha Hl Hd|Ht Er Hx Hk]; try discriminate.
    + assert (Hp : In old ["icked"; "ied"]%string -> p <> []) by (intros Ho ->; entries H; injection H as <- <- <-; cbn in Hn; try lia; cbn in Ho; intuition discriminate).
      entries H; injection H as <- <- <-; rewrite Er in C; clear Er; lits; (destruct C as [(C1 & C2 & C3 & C)|[(C1 & C2 & C)|[(C1 & C2 & C)|[(C1 & C)|(C1 & C2 & C)]]]]; subst; peel; try closed_char);
        left; specialize (Hp ltac:(cbn; auto)).
      all: first [exists p, c, "icke"%string; split; [exact Hp|split; [exact Hc|split; [cbn; auto|reflexivity]]]|exists p, c, "ick"%string; split; [exact Hp|split; [exact Hc|split; [cbn; auto|reflexivity]]]|exists p, c, "ie"%string; split; [exact Hp|split; [exact Hc|split; [cbn; auto|reflexivity]]]|exists p, c, "i"%string; split; [exact Hp|split; [exact Hc|split; [cbn; auto|reflexivity]]]|idtac].
      * exists rq, x, "ie"%string. split; [exact Hp|split; [exact Hc|split; [cbn; auto|reflexivity]]].
      * exfalso. apply (Hl "y"%string (or_introl eq_refl)). reflexivity.
      * exists (x :: rq), y, "i"%string. split; [discriminate|split; [exact Hc|split; [cbn; auto|reflexivity]]].
    + right. exists p, v, c. auto.
  - destruct H as [(p & c & e & Hp & Hc & He & E)|(p & v & c & Hp & Hv & Hc & E)].
    + cbn [In] in He. repeat (destruct He as [<-|He]); [..|destruct He]; lits; peel; destruct C as [(C1 & C2 & C3 & C)|[(C1 & C2 & C)|[(C1 & C2 & C)|[((C1 & C2) & C)|(C1 & C2 & C)]]]]; subst; peel; try closed_char; rewrite C; clear C.
      all: match goal with
        | Hn : ~ (consonant _ /\ 105%N = 105%N /\ 101%N = 101%N) |- _ => exfalso; apply Hn; auto
        | Hn : ~ (consonant 107%N /\ _) |- _ => exfalso; apply Hn; split; [cbn; auto 30|auto]
        | |- rhidden _ _ _ (100%N :: 101%N :: 107%N :: 99%N :: 105%N :: ?c :: ?p) _ => apply (rh_ending _ _ _ _ _ 2 "icked"%string ["ic"%string] p c)
        | |- rhidden _ _ _ _ (105%N :: ?c :: ?p) => apply (rh_ending _ _ _ _ _ 2 "ied"%string ["y"%string] p c)
        | |- rhidden _ _ _ _ (101%N :: 105%N :: ?c :: ?p) => apply (rh_ending _ _ _ _ _ 2 "ied"%string ["y"%string] p c)
        end.
      all: try (cbn; auto 30; fail); try exact Hc; try reflexivity.
      all: try (intros new [<-|[]]; lits; intros F; peel).
      all: try (destruct p; [congruence|cbn [length]; lia]).
      all: try (apply (f_equal (@length _)) in F; cbn in F; lia); cbn [length]; lia.
    + peel. destruct C as [(C1 & C2 & C3 & C)|[(C1 & C2 & C)|[(C1 & C2 & C)|[((C1 & C2) & C)|(C1 & C2 & C)]]]]; subst; peel; try closed_char; rewrite ?C; clear C.
      * eapply (rh_doubled _ _ _ _ _ p v c "ed"%string); [cbn; auto|exact Hp|exact Hv|exact Hc|reflexivity|reflexivity].
      * exfalso. apply C1. auto.
Qed.
