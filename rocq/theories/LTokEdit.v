(** The tokens of any ordinary text: what may change. *)
From Coq Require Import Ascii String.
From Coq Require Import List NArith ZArith Arith Bool Lia.
From Verif Require Import PyBase Regex MTokenizer SText STok LBase LText LRegex LSub LSentencizer LRestore LTok LTokWords LDecode LGood LRule LStages LProtect LTokDec LSanit LTokText.
Import ListNotations.
Local Open Scope nat_scope.

Section Edit.
  Context (U : udb) (OK : udb_ok U) (rs : list char) (RS : incl rs res_chars).
  Notation plainc := (plainc rs).
  Notation rare := (rare rs).
  Notation dec := (dec rs).
  Notation words := (split_ws (u_space U)).
  Context (env0 : envt) (E0 : forall a v, In (a, v) env0 -> framed rs a /\ ~ In 95%N a).

  Lemma numtext_space n c : numtext U n -> In c n -> u_space U c = false.
  Proof.
    assert (D : forall x, u_digit U x = true -> u_space U x = false).
    { intros x Hx. apply (ok_digit_word _ OK) in Hx. destruct (u_space U x) eqn:E; [|reflexivity]. apply (ok_space_word _ OK) in E. congruence. }
    intros (d & m & -> & Hd & Hm) [<-|Hc]; [exact (D _ Hd)|]. rewrite Forall_forall in Hm. destruct (Hm c Hc) as [H|[-> | ->]]; [exact (D _ H)| |]; apply (printable_space U OK); lia.
  Qed.
  Lemma numtext_quote n q : numtext U n -> q = 39%N \/ q = 34%N -> ~ In q n.
  Proof.
    assert (D : forall q, q = 39%N \/ q = 34%N -> u_digit U q = false) by (intros x [-> | ->]; rewrite (ok_digit _ OK) by lia; reflexivity).
    intros (d & m & -> & Hd & Hm) Hq [E|Hc]; [subst d; rewrite (D q Hq) in Hd; discriminate|]. rewrite Forall_forall in Hm. destruct (Hm q Hc) as [H|[-> | ->]]; [rewrite (D q Hq) in H; discriminate| |]; destruct Hq as [Hq|Hq]; discriminate Hq.
  Qed.
  (** feet and inches, feet, inches *)
  Definition foots (x x' : str) : Prop :=
    (exists n m, numtext U n /\ numtext U m /\ x = n ++ [39%N] ++ m ++ [34%N] /\ x' = n ++ lit "ft" ++ m ++ lit "in") \/
    (exists n, numtext U n /\ x = n ++ [39%N] /\ x' = n ++ lit "ft") \/
    (exists n, numtext U n /\ x = n ++ [34%N] /\ x' = n ++ lit "in").
  Lemma foots_ok ru : In ru ns_b -> forall b w y st, match_at U (r_ic ru) (r_pat ru) b (w ++ y) = Some st -> aft st = y -> bef st = rev w ++ b -> lang U (r_ic ru) (r_pat ru) w ->
    foots w (expand (undo (r_rep ru)) w st).
  Proof.
    intros Hr b w y st Hm Ha Hb Hl. apply match_at_some in Hm. unfold ns_b in Hr. cbn [firstn skipn re_no_split] in Hr. destruct Hr as [<-|[<-|[<-|[]]]]; cbn [r_ic r_pat r_rep mk seqs] in *.
    - destruct Hl as (e & z & -> & He & (n & z2 & -> & Hn & (c & z3 & -> & Hc & (m & z4 & -> & Hm2 & Hz4)))). cbn in He. subst e. apply (number_lang U OK n) in Hn. apply (number_lang U OK m) in Hm2. apply (ch_lang U OK) in Hc; [|reflexivity]. apply (ch_lang U OK) in Hz4; [|reflexivity]. subst c z4. cbn [app] in *.
      left. exists n, m. split; [exact Hn|]. split; [exact Hm2|]. split; [reflexivity|].
      destruct (comp_spec U OK true (Seq after_sp (Seq (Grp 1 number) (Seq (ch 39) (Seq (Grp 2 number) (ch 34))))) [SG 1; SL 39%N; SG 2; SL 34%N] _ _ (n ++ 39%N :: m ++ [34%N]) eq_refl Hm) as (xs & Ex & F); [cbn [aft]; rewrite Ha; reflexivity|exact Hb|].
      inversion F as [|x1 ? l1 ? F1 G1]; subst; clear F. inversion G1 as [|x2 ? l2 ? F2 G2]; subst; clear G1. inversion G2 as [|x3 ? l3 ? F3 G3]; subst; clear G2. inversion G3 as [|x4 ? l4 ? F4 G4]; subst; clear G3. inversion G4; subst; clear G4. cbn [sym_is] in *. subst x1 x2 x3 x4.
      cbn [concat app] in Ex. change (39%N :: m ++ [34%N]) with ([39%N] ++ m ++ [34%N]) in Ex.
      assert (E : Regex.group st 1 = n /\ Regex.group st 2 = m).
      { cbn [app] in Ex. destruct (app_eq_app _ _ _ _ Ex) as (l & [[E1 E2]|[E1 E2]]).
        - destruct l as [|x l]; [rewrite app_nil_r in E1; cbn in E2; injection E2 as E2; apply app_inj_tail in E2; destruct E2 as [E2 _]; split; congruence|].
          injection E2 as <- _. exfalso. apply (numtext_quote n 39%N Hn ltac:(auto)). rewrite E1, in_app_iff. right. left. reflexivity.
        - destruct l as [|x l]; [rewrite app_nil_r in E1; cbn in E2; injection E2 as E2; apply app_inj_tail in E2; destruct E2 as [E2 _]; split; congruence|].
          cbn [app] in E2. injection E2 as <- E2. exfalso. assert (In 39%N (m ++ [34%N])) as Hi by (rewrite E2, in_app_iff; right; left; reflexivity). apply in_app_iff in Hi. destruct Hi as [Hi|[Hi|[]]]; [exact (numtext_quote m 39%N Hm2 ltac:(auto) Hi)|discriminate Hi]. }
      destruct E as [E1 E2]. cbn [undo map find senv fst snd expand flat_map]. change (expand (undo [TGrp 1; TLit (lit "ft"); TGrp 2; TLit (lit "in")]) (n ++ 39%N :: m ++ [34%N]) st = n ++ lit "ft" ++ m ++ lit "in").
      unfold expand. change (undo [TGrp 1; TLit (lit "ft"); TGrp 2; TLit (lit "in")]) with [TGrp 1; TLit (lit "ft"); TGrp 2; TLit (lit "in")]. cbn [flat_map]. rewrite E1, E2, app_nil_r. reflexivity.
    - destruct Hl as (e & z & -> & He & (n & c & -> & Hn & Hc)). cbn in He. subst e. apply (number_lang U OK n) in Hn. apply (ch_lang U OK) in Hc; [|reflexivity]. subst c. cbn [app] in *.
      right. left. exists n. split; [exact Hn|]. split; [reflexivity|].
      destruct (comp_spec U OK true (Seq after_sp (Seq (Grp 1 number) (ch 39))) [SG 1; SL 39%N] _ _ (n ++ [39%N]) eq_refl Hm) as (xs & Ex & F); [cbn [aft]; rewrite Ha; reflexivity|exact Hb|].
      inversion F as [|x1 ? l1 ? F1 G1]; subst; clear F. inversion G1 as [|x2 ? l2 ? F2 G2]; subst; clear G1. inversion G2; subst; clear G2. cbn [sym_is] in *. subst x1 x2. cbn [concat] in Ex. rewrite app_nil_r in Ex. apply app_inj_tail in Ex. destruct Ex as [E1 _].
      unfold expand. change (undo [g 1; tl_ "ft"]) with [TGrp 1; TLit (lit "ft")]. cbn [flat_map]. rewrite app_nil_r. f_equal. congruence.
    - destruct Hl as (e & z & -> & He & (n & c & -> & Hn & Hc)). cbn in He. subst e. apply (number_lang U OK n) in Hn. apply (ch_lang U OK) in Hc; [|reflexivity]. subst c. cbn [app] in *.
      right. right. exists n. split; [exact Hn|]. split; [reflexivity|].
      destruct (comp_spec U OK true (Seq after_sp (Seq (Grp 1 number) (ch 34))) [SG 1; SL 34%N] _ _ (n ++ [34%N]) eq_refl Hm) as (xs & Ex & F); [cbn [aft]; rewrite Ha; reflexivity|exact Hb|].
      inversion F as [|x1 ? l1 ? F1 G1]; subst; clear F. inversion G1 as [|x2 ? l2 ? F2 G2]; subst; clear G1. inversion G2; subst; clear G2. cbn [sym_is] in *. subst x1 x2. cbn [concat] in Ex. rewrite app_nil_r in Ex. apply app_inj_tail in Ex. destruct Ex as [E1 _].
      unfold expand. change (undo [g 1; tl_ "in"]) with [TGrp 1; TLit (lit "in")]. cbn [flat_map]. rewrite app_nil_r. f_equal. congruence.
  Qed.
  Lemma visible_id s : (forall c, In c s -> u_space U c = false) -> filter (fun c => negb (u_space U c)) s = s.
  Proof. induction s as [|c s IH]; intros H; [reflexivity|]. cbn. rewrite (H c) by (left; reflexivity). cbn. f_equal. apply IH. intros x Hx. apply H. right. exact Hx. Qed.
  Lemma foots_adjusted x x' : foots x x' -> adjusted U (nsp U (map C x)) (nsp U (map C x')).
  Proof.
    assert (SP : forall c, (33 <= c < 127)%N -> u_space U c = false) by (intros c Hc; apply (printable_space U OK); lia).
    intros H. rewrite !nsp_C. rewrite !visible_id.
    - destruct H as [(n & m & Hn & Hm & -> & ->)|[(n & Hn & -> & ->)|(n & Hn & -> & ->)]].
      + apply (ad_then U _ (n ++ lit "ft" ++ m ++ [34%N])).
        * assert (A := ad_part U [] _ _ (m ++ [34%N]) (ad_feet U n Hn)). cbn [app] in A. rewrite <- !app_assoc in A. exact A.
        * assert (A := ad_part U (n ++ lit "ft") _ _ [] (ad_inches U m Hm)). rewrite !app_nil_r, <- !app_assoc in A. exact A.
      + exact (ad_feet U n Hn).
      + exact (ad_inches U n Hn).
    - intros c Hc. destruct H as [(n & m & Hn & Hm & -> & ->)|[(n & Hn & -> & ->)|(n & Hn & -> & ->)]]; repeat rewrite in_app_iff in Hc; cbn [In lit] in Hc;
        repeat match goal with H : _ \/ _ |- _ => destruct H | H : False |- _ => destruct H | H : numtext U ?n, K : In ?c ?n |- _ => exact (numtext_space _ _ H K) | H : _ = c |- _ => rewrite <- H; apply SP; cbn; lia end.
    - intros c Hc. destruct H as [(n & m & Hn & Hm & -> & ->)|[(n & Hn & -> & ->)|(n & Hn & -> & ->)]]; repeat rewrite in_app_iff in Hc; cbn [In lit] in Hc;
        repeat match goal with H : _ \/ _ |- _ => destruct H | H : False |- _ => destruct H | H : numtext U ?n, K : In ?c ?n |- _ => exact (numtext_space _ _ H K) | H : _ = c |- _ => rewrite <- H; apply SP; cbn; lia end.
  Qed.
  Lemma rewr_adjusted (R : list dch -> list dch -> Prop) : (forall w w', R w w' -> adjusted U (nsp U w) (nsp U w')) -> forall d d', rewr R d d' -> adjusted U (nsp U d) (nsp U d').
  Proof.
    intros HR d d' H. induction H as [d|a w w' b b' Hw H IH]; [constructor|]. rewrite !nsp_app. apply (ad_then U _ (nsp U a ++ nsp U w' ++ nsp U b)); [apply ad_part; apply HR; exact Hw|].
    assert (A := ad_part U (nsp U a ++ nsp U w') _ _ [] IH). rewrite !app_nil_r, <- !app_assoc in A. exact A.
  Qed.

  Section Prot.
    Context (k : nat) (prot : dict str str) (HN : numbered rs k prot) (ms : list str).
    Notation env1 := (env_of prot ++ env0).
    Notation env2 := (env_of senv ++ env1).
    Notation inv n0 := (inv U ms True n0).
    Let FE2' : framed_env rs env2 := FE2 rs env0 E0 k prot HN.
    Let HI2' : incl (env_of senv) env2 := HI2 env0 prot.
    Lemma foot_edit rules : incl rules ns_b -> forallb anyb rules = true -> forall s d, dec env2 s d -> good U ms d -> exists d', dec env2 (fold_left (apply_rule U) rules s) d' /\ good U ms d' /\ adjusted U (nsp U d) (nsp U d').
    Proof.
      induction rules as [|ru rules IH]; intros Hi H s d Hd HG; [exists d; split; [exact Hd|split; [exact HG|constructor]]|]. cbn [forallb] in H. apply andb_true_iff in H. destruct H as [H1 H2]. unfold anyb in H1. repeat rewrite andb_true_iff in H1. destruct H1 as [[H1 H3] H4]. cbn [fold_left].
      destruct (rule_any_ctx U OK rs RS senv env2 FE2' HI2' ru (undo (r_rep ru)) H1) with (f := foots) (s := s) (d := d) as (d2 & D2 & R2); [apply (must_rare U OK rs RS); exact H4|exact H3|apply foots_ok; apply Hi; left; reflexivity|exact Hd|].
      destruct (IH (fun x Hx => Hi x (or_intror Hx)) H2 _ d2 D2) as (d' & D' & G' & A').
      - eapply rewr_good; [|exact HG]. eapply rewr_impl; [|exact R2]. intros w w' [[K _] _]. exact K.
      - exists d'. split; [exact D'|]. split; [exact G'|]. eapply ad_then; [|exact A']. eapply rewr_adjusted; [|exact R2]. intros w w' (_ & x & x' & -> & -> & Hf). apply foots_adjusted. exact Hf.
    Qed.
    Lemma star_edit s d : dec env2 s d -> good U ms d -> exists d', dec env2 (apply_rule U s star_rule) d' /\ good U ms d' /\ adjusted U (nsp U d) (nsp U d').
    Proof.
      intros Hd HG. destruct (rule_any_ctx U OK rs RS senv env2 FE2' HI2' star_rule (undo (r_rep star_rule)) eq_refl) with (f := fun _ x' : str => x' = lit " * ") (s := s) (d := d) as (d' & D & R); [apply (must_rare U OK rs RS); reflexivity|reflexivity| |exact Hd|].
      - intros b w y st _ _ _ _. reflexivity.
      - exists d'. split; [exact D|]. split; [eapply rewr_good; [|exact HG]; eapply rewr_impl; [|exact R]; intros w w' [[K _] _]; exact K|]. eapply rewr_adjusted; [|exact R].
        intros w w' [[K (x & -> & Lx & (db & da & E))] (x0 & x' & E0' & -> & Ex)]. subst x'.
        change (lang U true (Seq (Behind true [clc]) (Seq (plus (ch 42)) (Look true lc))) x) in Lx. destruct Lx as (y & z & -> & Hy & (z1 & z2 & -> & Hz1 & Hz2)). cbn in Hy, Hz2. subst y z2. rewrite app_nil_r in *. cbn [app] in *.
        change (lang U true (plus (Chr (cc 42))) z1) in Hz1. apply plus_lang in Hz1. destruct Hz1 as [Hn Hz].
        assert (F : Forall (fun c => c = 42%N) z1) by (eapply Forall_impl; [|exact Hz]; intros c Hc; cbn beta in Hc; assert (Lc : lang U true (ch 42) [c]) by (exists c; auto); apply (ch_lang U OK) in Lc; [congruence|reflexivity]).
        assert (S42 : u_space U 42%N = false) by (apply (printable_space U OK); lia).
        rewrite !nsp_C. change (lit " * ") with [32; 42; 32]%N. cbn [filter]. rewrite (space32 U OK), S42. cbn [negb].
        assert (z1 = repeat 42%N (length z1)) as Ez by (clear -F; induction F as [|c l -> F IH]; [reflexivity|cbn; congruence]).
        rewrite visible_id by (intros c Hc; rewrite Forall_forall in F; rewrite (F c Hc); exact S42). rewrite Ez. destruct (length z1) as [|n] eqn:El; [destruct z1; [congruence|discriminate]|]. apply ad_stars.
    Qed.
    Lemma inv_self d : good U ms d -> inv (nsp U d) d.
    Proof. intros H. split; auto. Qed.
    Lemma after_protect_edit t d1 : dec env1 t d1 -> good U ms d1 -> exists d', dec env0 (after_protect U prot t) d' /\ good U ms d' /\ adjusted U (nsp U d1) (nsp U d').
    Proof.
      intros Hd HG. unfold after_protect. rewrite ns_abc, !fold_left_app, (fold_snoc U).
      assert (D0 : dec env2 t d1) by (eapply dec_mono; [|exact Hd]; intros x Hx; apply in_app_iff; auto).
      apply (exact_rules U OK rs RS env0 E0 k prot HN _ ns_a_ok) in D0.
      destruct (foot_edit ns_b (fun x Hx => Hx) ns_b_ok _ d1 D0 HG) as (e1 & D1 & G1 & A1).
      destruct (keep_rules U OK rs RS ms True (nsp U e1) senv env2 (ns_c ++ [re_always_split]) FE2' HI2' ns_c_ok _ e1 D1 (inv_self _ G1)) as (e2 & D2 & I2).
      revert D2. generalize (fold_left (apply_rule U) (ns_c ++ [re_always_split]) (fold_left (apply_rule U) ns_b (fold_left (apply_rule U) ns_a t))). intros s2 D2.
      destruct (stage_dots U OK rs RS ms True (nsp U e1) env2 s2 e2 FE2' D2 I2) as (e3 & D3 & I3). revert D3. change [32%N] with (lit " "). generalize (join (lit " ") (flat_map (split_dots U) (words s2))). intros s3 D3.
      rewrite seg_split, !(fold_cons U).
      destruct (stage_cannot U OK rs RS env0 E0 k prot HN ms True e1 s3 e3 D3 I3) as (e4 & D4 & I4).
      destruct (star_edit _ e4 D4 (proj1 I4)) as (e5 & D5 & G5 & A5).
      destruct (keep_rules U OK rs RS ms True (nsp U e5) senv env2 (skipn 2 re_segment_off) FE2' HI2' seg_ok _ e5 D5 (inv_self _ G5)) as (e6 & D6 & I6).
      revert D6. generalize (fold_left (apply_rule U) (skipn 2 re_segment_off) (apply_rule U (apply_rule U s3 cannot_rule) star_rule)). intros s6 D6.
      destruct (stage_words U OK rs RS ms True (nsp U e5) env2 s6 e6 FE2' D6 I6) as (e7 & D7 & I7). revert D7. change [32%N] with (lit " "). generalize (join (lit " ") (words s6)). intros s7 D7.
      pose proof (stage_restore U OK rs RS env0 E0 k prot HN ms True e5 s7 e7 D7 I7) as D8. revert D8. generalize (fold_left (apply_rule U) re_restore s7). intros s8 D8.
      destruct (stage_reattach U OK rs RS env0 E0 k prot HN ms True e5 s8 e7 D8 I7) as (e9 & D9 & I9). exists e9. split; [eapply stage_keys; eauto|]. split; [exact (proj1 I9)|].
      rewrite (proj2 I9 I). eapply ad_then; [exact A1|]. rewrite <- (proj2 I4 I). exact A5.
    Qed.
  End Prot.
End Edit.

Section EditText.
  Context (U : udb) (OK : udb_ok U).
  Theorem content_adjusted t tokens : t <> [] -> ordinary U t -> tokenize U t = Ok tokens -> adjusted U (visible U (one_dash (map straight t))) (concat tokens).
  Proof.
    intros Hn HO ET. destruct (ordinary_good U t HO) as (G & H47 & HW & D).
    assert (RS : incl [] res_chars) by (intros x []). assert (E0 : forall a v, In (a, v) (@nil (str * list dch)) -> framed [] a /\ ~ In 95%N a) by (intros a v []).
    assert (FE : framed_env [] []) by (intros a v []).
    destruct (sanitize_dec U OK [] RS [] FE [] t (map C t) D G) as (d1 & D1 & G1 & K).
    assert (N47 : ~ In (C 47%N) d1).
    { intros Hi. apply in_split in Hi. destruct Hi as (a & b & E). apply H47. destruct (proj1 (K [47%N] ltac:(discriminate) ltac:(intros c [<-|[]]; cbn; intuition discriminate))) as (a' & b' & E'); [exists a, b; exact E|]. rewrite E', !in_app_iff. right. left. left. reflexivity. }
    destruct (protect_text_dec U OK [] RS [] E0 _ d1 D1 N47 (wkept U OK _ _ K HW)) as (k & prot & t' & EP & HN & D2).
    destruct (after_protect_edit U OK [] RS [] E0 k prot HN [] t' d1 D2 G1) as (d' & D' & G' & A).
    unfold tokenize in ET. destruct t as [|c t0]; [congruence|]. rewrite EP in ET. cbn [rbind] in ET. apply ok_inj in ET.
    assert (ET' : tokens = split_ws (u_space U) (after_protect U prot t')) by (rewrite <- ET; reflexivity). clear ET. subst tokens. rewrite split_ws_concat. apply dec_nothing in D1. apply dec_nothing in D'. subst d1 d'.
    rewrite !(nsp_visible U) in A. rewrite (visible_sanitize U OK) in A. exact A.
  Qed.
End EditText.
