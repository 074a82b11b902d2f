(** What the tokens of a text stand for. *)
From Coq Require Import Ascii String.
From Coq Require Import List NArith ZArith Arith Bool Lia.
From Verif Require Import PyBase Regex MTokenizer SText STok LBase LText LRegex LSub LSentencizer LRestore LTok LTokWords LDecode LGood LRule LStages LProtect.
Import ListNotations.
Local Open Scope nat_scope.

(** digits with commas and full stops *)
Definition numtext (U : udb) (n : str) : Prop := exists c m, n = c :: m /\ u_digit U c = true /\ Forall (fun x => u_digit U x = true \/ x = 44%N \/ x = 46%N) m.

Section TokDec.
  Context (U : udb) (OK : udb_ok U) (rs : list char) (RS : incl rs res_chars).
  Notation plainc := (plainc rs).
  Notation rare := (rare rs).
  Notation dec := (dec rs).
  Notation words := (split_ws (u_space U)).
  Context (env0 : envt) (E0 : forall a v, In (a, v) env0 -> framed rs a /\ ~ In 95%N a).

  (** *** restoration of symbols *)
  Lemma static_form k v : In (k, v) senv -> exists c b, k = 95%N :: (c :: b) ++ [95%N] /\ ~ In 95%N (c :: b) /\ In (c :: b) bodies /\ (c = 78%N \/ c = 82%N).
  Proof.
    assert (G : forall c b, ~ In 95%N (c :: b) -> In (c :: b) bodies -> (c = 78%N \/ c = 82%N) -> exists c' b', 95%N :: (c :: b) ++ [95%N] = 95%N :: (c' :: b') ++ [95%N] /\ ~ In 95%N (c' :: b') /\ In (c' :: b') bodies /\ (c' = 78%N \/ c' = 82%N)) by (intros c b H1 H2 H3; exists c, b; auto).
    intros H. destruct H as [H|[H|[H|[H|[H|[]]]]]]; injection H as <- <-; [apply (G 78%N (lit "SD"))|apply (G 78%N (lit "SGE"))|apply (G 78%N (lit "SLE"))|apply (G 82%N (lit "NSGE"))|apply (G 82%N (lit "NSLE"))]; cbn; auto; try intuition discriminate.
  Qed.
  Lemma static_framed k v : In (k, v) senv -> framed rs k.
  Proof.
    intros H. destruct (static_form k v H) as (c & b & -> & _ & Hb & _). exists 95%N, (c :: b), 95%N. split; [reflexivity|]. split; [left; reflexivity|]. split; [left; reflexivity|]. apply Forall_forall. intros x Hx. apply in_app_iff. right. pose proof (body_in _ _ Hb Hx) as K. cbn in K |- *. tauto.
  Qed.
  Lemma static_plain k v : In (k, v) senv -> Forall plainc v.
  Proof. intros H. apply (ok_lit_plain rs RS). cbn in H. repeat (destruct H as [H|H]; [injection H as <- <-; reflexivity|]). destruct H. Qed.
  Lemma factor_has b d : (forall c, In c b -> u_space U c = false) -> factor (map C b) d -> has b (nsp U d).
  Proof.
    intros Hb (x & y & ->). exists (nsp U x), (nsp U y). rewrite !nsp_app, nsp_C. do 2 f_equal. clear -Hb. induction b as [|c b IH]; [reflexivity|]. cbn. rewrite (Hb c) by (left; reflexivity). cbn. f_equal. apply IH. intros d Hd. apply Hb. right. exact Hd.
  Qed.
  Lemma body_space k c : In k bodies -> In c k -> u_space U c = false.
  Proof. intros Hk Hc. pose proof (body_in k c Hk Hc) as K. assert (F : forallb (fun c => (33 <=? c) && (c <? 127))%N body_chars = true) by reflexivity. rewrite forallb_forall in F. specialize (F c K). apply andb_true_iff in F. rewrite N.leb_le, N.ltb_lt in F. apply (printable_space U OK); lia. Qed.

  Section Prot.
    Context (k : nat) (prot : dict str str) (HN : numbered rs k prot).
    Notation env1 := (env_of prot ++ env0).
    Lemma env1_cases a v : In (a, v) env1 -> (exists n, a = protect_key n) \/ (framed rs a /\ ~ In 95%N a).
    Proof.
      intros H. apply in_app_iff in H. destruct H as [H|H]; [|right; exact (E0 _ _ H)]. left. unfold env_of in H. apply in_map_iff in H. destruct H as ([a' x] & E & H). injection E as <- _. pose proof (numbered_keys rs k prot HN) as F. rewrite Forall_forall in F. exact (F _ H).
    Qed.
    Lemma framed_all sv : incl sv senv -> framed_env rs (env_of sv ++ env1).
    Proof.
      intros Hi a v H. apply in_app_iff in H. destruct H as [H|H].
      - unfold env_of in H. apply in_map_iff in H. destruct H as ([a' x] & E & H). injection E as <- _. cbn. eapply static_framed. apply Hi. exact H.
      - destruct (env1_cases a v H) as [(n & ->)|[F _]]; [apply key_framed|exact F].
    Qed.
    Lemma restore_static sv : incl sv senv -> NoDup (map fst sv) -> forall t d, noK U d -> dec (env_of sv ++ env1) t d -> dec env1 (fold_left (apply_rule U) (map (fun p => mk (word (fst p)) false [TLit (snd p)]) sv) t) d.
    Proof.
      induction sv as [|[key v] sv IH]; intros Hi ND t d HK Hd; [exact Hd|]. cbn [map fold_left fst snd]. inversion ND as [|? ? Hni ND']; subst. cbn [map fst] in Hni. apply IH; [intros x Hx; apply Hi; right; exact Hx|exact ND'|exact HK|].
      assert (Hk : In (key, v) senv) by (apply Hi; left; reflexivity). destruct (static_form key v Hk) as (c & b & Ek & N95 & Hb & Hc).
      unfold apply_rule. cbn [r_pat r_ic r_rep mk].
      assert (CASES : forall a v', In (a, v') (env_of ((key, v) :: sv) ++ env1) -> (a = key /\ v' = map C v) \/ (exists w, In (a, w) senv /\ a <> key) \/ (exists n, a = protect_key n) \/ (framed rs a /\ ~ In 95%N a)).
      { intros a v' H. apply in_app_iff in H. destruct H as [H|H]; [|right; right; exact (env1_cases _ _ H)]. destruct H as [H|H]; [injection H as <- <-; auto|]. unfold env_of in H. apply in_map_iff in H. destruct H as ([a' x] & E & H). injection E as <- <-. cbn. right. left. exists x. split; [apply Hi; right; exact H|]. intros ->. apply Hni. apply in_map_iff. exists (key, x). auto. }
      apply (unreplace rs (env_of ((key, v) :: sv) ++ env1) (framed_all _ Hi) key (map C v) c b []) with (vt := v) (t := t).
      - exact Ek.
      - apply Forall_forall. intros x Hx [<-|F]; [exact (N95 Hx)|]. apply RS in F. pose proof (body_in _ _ Hb Hx) as K. cbn in F, K. intuition congruence.
      - intros a v' H x y E. destruct (CASES a v' H) as [[-> ->]|[(w & Hw & Hne)|[(n & ->)|[Fa Ha]]]]; [auto| | |].
        + exfalso. apply Hne. destruct (static_form a w Hw) as (c' & b' & -> & N95' & _). rewrite Ek in E |- *. cbn [app] in E. injection E as E1 E2. rewrite <- !app_assoc in E2. cbn [app] in E2. assert (E3 : (c' :: b') ++ 95%N :: x = (c :: b) ++ 95%N :: y) by (cbn; congruence). apply first_occ in E3; [|exact N95'|exact N95]. destruct E3 as [E3 _]. injection E3 as -> ->. reflexivity.
        + exfalso. rewrite Ek in E. unfold protect_key in E. cbn in E. injection E as E _. destruct Hc; subst c; discriminate.
        + exfalso. destruct Fa as (f1 & mid & f2 & -> & _). apply Ha. rewrite Ek in E. cbn in E. injection E as -> _. left. reflexivity.
      - intros a1 a2 v' H N1 r ->. destruct (CASES _ _ H) as [[E _]|[(w & Hw & Hne)|[(n & E)|[_ Ha]]]].
        + rewrite Ek in E. apply (f_equal (@rev N)) in E. destruct a1 as [|x a1]; [congruence|]. cbn [app] in E. clear -E N95. apply (f_equal (@rev N)) in E. rewrite !rev_involutive in E. cbn in E. injection E as _ E.
          change (c :: b ++ [95%N]) with ((c :: b) ++ 95%N :: []) in E. assert (forall (p q u z : list N), p ++ 95%N :: q = u ++ 95%N :: z -> ~ In 95%N u -> z = [] -> q = []) as G.
          { intros p q u z E1 Hu ->. destruct (app_eq_app _ _ _ _ E1) as (l & [[E2 E3]|[E2 E3]]).
            - destruct l as [|y l]; [cbn in E3; congruence|]. cbn in E3. injection E3 as _ E3. destruct l; discriminate.
            - destruct l as [|y l]; [cbn in E3; congruence|]. injection E3 as <- _. exfalso. apply Hu. rewrite E2, in_app_iff. right. left. reflexivity. }
          apply G in E; [discriminate|exact N95|reflexivity].
        + destruct (static_form _ w Hw) as (c' & b' & E & N95' & _). destruct a1 as [|x a1]; [congruence|]. cbn [app] in E. injection E as _ E. change (c' :: b' ++ [95%N]) with ((c' :: b') ++ 95%N :: []) in E.
          destruct (app_eq_app _ _ _ _ E) as (l & [[E2 E3]|[E2 E3]]).
          * destruct l as [|y l]; [cbn in E3; congruence|]. cbn in E3. injection E3 as _ E3. destruct l; discriminate.
          * destruct l as [|y l]; [cbn in E3; congruence|]. injection E3 as <- _. apply N95'. rewrite E2, in_app_iff. right. left. reflexivity.
        + symmetry in E. apply key_inner in E; [|exact N1]. destruct E as [E|(c0 & r' & E & Hc0)]; [discriminate|]. injection E as <- _. destruct Hc; subst c; lia.
        + apply Ha. apply in_app_iff. right. left. reflexivity.
      - intros a v' H. apply in_app_iff in H. destruct H as [H|H]; [|right; apply in_app_iff; auto]. destruct H as [H|H]; [injection H as <- _; auto|right; apply in_app_iff; auto].
      - apply dec_plain. eapply static_plain. exact Hk.
      - apply (sub_word U). rewrite Ek. discriminate.
      - unfold apart. intros F. apply (HK (c :: b) Hb). apply factor_has; [|exact F]. intros x Hx. eapply body_space; eauto.
      - exact Hd.
    Qed.

    (** *** the rules *)
    Context (ms : list str) (Q : Prop) (d1 : list dch).
    Context (HQ1 : Q -> forall n q, numtext U n -> (q = 39%N \/ q = 34%N) -> ~ factor (map C (n ++ [q])) d1).
    Context (HQ2 : Q -> ~ has [42; 42]%N (nsp U d1)).
    Notation inv := (inv U ms Q (nsp U d1)).
    Notation env2 := (env_of senv ++ env1).
    Lemma FE2 : framed_env rs env2.
    Proof. apply framed_all. intros x Hx. exact Hx. Qed.
    Lemma HI2 : incl (env_of senv) env2.
    Proof. intros x Hx. apply in_app_iff. auto. Qed.

    Definition ns_a : list rule := firstn 4 re_no_split.
    Definition ns_b : list rule := firstn 3 (skipn 4 re_no_split).
    Definition ns_c : list rule := skipn 7 re_no_split.
    Lemma ns_abc : re_no_split = ns_a ++ ns_b ++ ns_c.
    Proof. reflexivity. Qed.
    Definition exactb (ru : rule) : bool := base_ok senv ru (undo (r_rep ru)) && exact_ok ru (undo (r_rep ru)) && mustb rare_symbols (r_pat ru).
    Lemma exact_rules rules : forallb exactb rules = true -> forall s d, dec env2 s d -> dec env2 (fold_left (apply_rule U) rules s) d.
    Proof.
      induction rules as [|ru rules IH]; intros H s d Hd; [exact Hd|]. cbn [forallb] in H. apply andb_true_iff in H. destruct H as [H1 H2]. unfold exactb in H1. repeat rewrite andb_true_iff in H1. destruct H1 as [[H1 H3] H4]. cbn [fold_left]. apply (IH H2).
      apply (rule_exact U OK rs RS senv env2 FE2 HI2 ru (undo (r_rep ru)) H1); [apply (must_rare U OK rs RS); exact H4|exact H3|exact Hd].
    Qed.
    (** feet and inches *)
    Lemma number_lang x : lang U true number x -> numtext U x.
    Proof.
      intros (y & z & -> & (c & -> & Hc) & Hz). exists c, z. split; [reflexivity|]. cbn in Hc. split; [destruct (u_digit U c); [reflexivity|discriminate]|].
      change (lang U true (Star true (Chr (cls [CDigit; CRange 44 44; CRange 46 46]))) z) in Hz. apply star_lang in Hz. eapply Forall_impl; [|exact Hz]. intros e He. cbn beta in He.
      unfold cset_match, cls in He. cbn [cs_neg cs_items existsb] in He. rewrite xorb_false_l, orb_false_r in He. apply orb_true_iff in He. destruct He as [He|He]; [left; exact He|]. apply orb_true_iff in He. right. destruct He as [He|He]; apply (caseless_range U OK) in He; auto.
    Qed.
    Lemma ch_lang c x : caseless c = true -> lang U true (ch c) x -> x = [c].
    Proof.
      intros Hc (e & -> & He). f_equal. unfold cset_match, cc, cls in He. cbn [cs_neg cs_items existsb] in He. rewrite xorb_false_l, orb_false_r in He. apply (caseless_range U OK) in He; auto.
    Qed.
    Lemma ns_b_lang ru : In ru ns_b -> r_ic ru = true /\ forall x, lang U true (r_pat ru) x -> exists n q y, x = (n ++ [q]) ++ y /\ numtext U n /\ (q = 39%N \/ q = 34%N).
    Proof.
      assert (G : forall q tl x, (q = 39%N \/ q = 34%N) -> lang U true (Seq after_sp (Seq (Grp 1 number) (Seq (ch q) tl))) x -> exists n q y, x = (n ++ [q]) ++ y /\ numtext U n /\ (q = 39%N \/ q = 34%N)).
      { intros q tl x Hq (y & z & -> & Hy & (n & z2 & -> & Hn & (c & z3 & -> & Hc & _))). cbn in Hy. subst y. apply (number_lang n) in Hn. apply ch_lang in Hc; [|destruct Hq; subst; reflexivity]. subst c. exists n, q, z3. split; [cbn; rewrite <- app_assoc; reflexivity|auto]. }
      assert (G2 : forall q x, (q = 39%N \/ q = 34%N) -> lang U true (Seq after_sp (Seq (Grp 1 number) (ch q))) x -> exists n q y, x = (n ++ [q]) ++ y /\ numtext U n /\ (q = 39%N \/ q = 34%N)).
      { intros q x Hq (y & z & -> & Hy & (n & c & -> & Hn & Hc)). cbn in Hy. subst y. apply (number_lang n) in Hn. apply ch_lang in Hc; [|destruct Hq; subst; reflexivity]. subst c. exists n, q, []. split; [cbn; rewrite app_nil_r; reflexivity|auto]. }
      intros H. unfold ns_b in H. cbn [firstn skipn re_no_split] in H. destruct H as [<-|[<-|[<-|[]]]]; (split; [reflexivity|]); intros x Hx; cbn [r_pat mk seqs] in Hx.
      - eapply (G 39%N); eauto.
      - eapply (G2 39%N); eauto.
      - eapply (G2 34%N); eauto.
    Qed.
    Definition anyb (ru : rule) : bool := base_ok senv ru (undo (r_rep ru)) && any_ok ru (undo (r_rep ru)) && mustb rare_symbols (r_pat ru).
    Lemma foot_rules rules : incl rules ns_b -> forallb anyb rules = true -> forall s d, dec env2 s d -> good U ms d -> (Q -> d = d1) -> exists d', dec env2 (fold_left (apply_rule U) rules s) d' /\ good U ms d' /\ (Q -> d' = d1).
    Proof.
      induction rules as [|ru rules IH]; intros Hi H s d Hd HG HE; [eauto|]. cbn [forallb] in H. apply andb_true_iff in H. destruct H as [H1 H2]. unfold anyb in H1. repeat rewrite andb_true_iff in H1. destruct H1 as [[H1 H3] H4]. cbn [fold_left].
      destruct (ns_b_lang ru (Hi ru (or_introl eq_refl))) as [Hic HL].
      destruct (rule_any_ctx U OK rs RS senv env2 FE2 HI2 ru (undo (r_rep ru)) H1) with (f := fun _ _ : str => True) (s := s) (d := d) as (d2 & D2 & R2); [apply (must_rare U OK rs RS); exact H4|exact H3|auto|exact Hd|].
      apply (IH (fun x Hx => Hi x (or_intror Hx)) H2 _ d2 D2).
      - eapply rewr_good; [|exact HG]. eapply rewr_impl; [|exact R2]. intros w w' [[K _] _]. exact K.
      - intros q. rewrite <- (HE q). inversion R2 as [|a w w' b b' [[_ (x & -> & Hx & (db & da & E))] _] Hr E1 E2]; [reflexivity|]. exfalso. rewrite Hic in Hx. destruct (HL x Hx) as (n & qc & y & -> & Hn & Hqc). apply (HQ1 q n qc Hn Hqc). exists db, (map C y ++ da). rewrite <- (HE q), <- E1, E, map_app, <- !app_assoc. reflexivity.
    Qed.
    (** cannot *)
    Definition cannot_rule : rule := nth 0 re_segment_off re_always_split.
    Definition star_rule : rule := nth 1 re_segment_off re_always_split.
    Lemma seg_split : re_segment_off = cannot_rule :: star_rule :: skipn 2 re_segment_off.
    Proof. reflexivity. Qed.
    Lemma cannot_rare x : lang U true (r_pat cannot_rule) x -> exists c, In c x /\ rare c /\ u_space U c = false.
    Proof.
      intros H. assert (K : exists y z, x = y ++ z /\ lang U true (w "can") y).
      { destruct H as (y & z & -> & Hy & (y2 & z2 & -> & Hy2 & _)). cbn in Hy. subst y. exists y2, z2. auto. }
      destruct K as (y & z & -> & Hy). unfold w in Hy. apply lang_word in Hy. change (lit "can") with [99; 97; 110]%N in Hy. inversion Hy as [|? a ? ? _ H1]; subst. inversion H1 as [|? b ? ? Hb H2]; subst.
      assert (Vb : In 97%N (u_variants U b)).
      { unfold cset_match, cc, cls in Hb. cbn [cs_neg cs_items existsb] in Hb. rewrite xorb_false_l, orb_false_r in Hb. cbn [citem_match] in Hb. apply existsb_exists in Hb. destruct Hb as (e & He & E). apply andb_true_iff in E. rewrite !N.leb_le in E. assert (e = 97%N) by lia. subst e. exact He. }
      exists b. split; [right; left; reflexivity|]. split.
      - intros F. apply in_app_iff in F. assert (LT : (b < 128)%N -> b = 97%N \/ 97%N = ascii_swap b) by (intros L; destruct (ok_var_letter _ OK b 97%N L Vb ltac:(lia)); auto).
        destruct F as [[<-|F]|F].
        + destruct (LT ltac:(lia)) as [E|E]; discriminate E.
        + apply RS in F. assert (In b code_symbols) as Hs by (cbn in F |- *; tauto). pose proof (ok_symbols _ OK b 97%N Hs (or_introl Vb)) as E. subst b. cbn in F. intuition discriminate.
        + assert (G : forallb (fun c => (c <? 128)%N && negb (N.eqb c 97) && negb (N.eqb 97 (ascii_swap c))) inner_chars = true) by (vm_compute; reflexivity). rewrite forallb_forall in G. specialize (G b F). repeat rewrite andb_true_iff in G. rewrite N.ltb_lt, !negb_true_iff, !N.eqb_neq in G. destruct G as [[G1 G2] G3]. destruct (LT G1); congruence.
      - rewrite <- (ok_var_space _ OK b 97%N Vb). apply (printable_space U OK); lia.
    Qed.
    Lemma stage_cannot s d : dec env2 s d -> inv d -> exists d', dec env2 (apply_rule U s cannot_rule) d' /\ inv d'.
    Proof.
      intros Hd Hi. destruct (rule_same U OK rs RS senv env2 FE2 HI2 cannot_rule (undo (r_rep cannot_rule)) eq_refl cannot_rare Q s d eq_refl Hd) as (d' & D & R). exists d'. split; [exact D|]. eapply inv_rewr; eauto.
    Qed.
    (** stars *)
    Lemma stage_star s d : dec env2 s d -> inv d -> exists d', dec env2 (apply_rule U s star_rule) d' /\ inv d'.
    Proof.
      intros Hd Hi. destruct (rule_any_ctx U OK rs RS senv env2 FE2 HI2 star_rule (undo (r_rep star_rule)) eq_refl) with (f := fun _ x' : str => x' = lit " * ") (s := s) (d := d) as (d' & D & R); [apply (must_rare U OK rs RS); reflexivity|reflexivity| |exact Hd|].
      - intros b w y st _ _ _ _. reflexivity.
      - exists d'. split; [exact D|]. eapply inv_rewr; [|exact Hi]. eapply rewr_impl; [|exact R]. intros w w' [[K (x & -> & Lx & (db & da & E))] (x0 & x' & E0' & -> & Ex)]. split; [exact K|]. intros q. subst x'.
        change (lang U true (Seq (Behind true [clc]) (Seq (plus (ch 42)) (Look true lc))) x) in Lx. destruct Lx as (y & z & -> & Hy & (z1 & z2 & -> & Hz1 & Hz2)). cbn in Hy, Hz2. subst y z2. rewrite app_nil_r in *. cbn [app] in *.
        change (lang U true (plus (Chr (cc 42))) z1) in Hz1. apply plus_lang in Hz1. destruct Hz1 as [Hn Hz].
        assert (F : Forall (fun c => c = 42%N) z1) by (eapply Forall_impl; [|exact Hz]; intros c Hc; cbn beta in Hc; assert (Lc : lang U true (ch 42) [c]) by (exists c; auto); apply ch_lang in Lc; [congruence|reflexivity]).
        assert (S42 : u_space U 42%N = false) by (apply (printable_space U OK); lia).
        rewrite !nsp_C. change (lit " * ") with [32; 42; 32]%N. cbn [filter]. rewrite (space32 U OK), S42. cbn [negb].
        destruct z1 as [|a [|b z1]]; [congruence| |].
        + inversion F; subst. cbn. rewrite S42. reflexivity.
        + exfalso. inversion F as [|? ? -> F']; subst. inversion F' as [|? ? -> F'']; subst. apply (HQ2 q). destruct Hi as [_ En]. rewrite <- (En q). apply factor_has; [intros c [<-|[<-|[]]]; exact S42|]. exists db, (map C z1 ++ da). reflexivity.
    Qed.

    (** *** from the protected text to the text with the protected parts restored *)
    Definition after_protect (t : str) : str :=
      fold_left (fun t '(key, value) => replace t key value) prot
        (fold_left (apply_rule U) re_reattach (fold_left (apply_rule U) re_restore
          (join (lit " ") (words (fold_left (apply_rule U) re_segment_off
            (join (lit " ") (flat_map (split_dots U) (words (apply_rule U (fold_left (apply_rule U) re_no_split t) re_always_split))))))))).
    Lemma seg_ok : forallb (keep_ok senv) (skipn 2 re_segment_off) = true. Proof. vm_compute. reflexivity. Qed.
    Lemma ns_a_ok : forallb exactb ns_a = true. Proof. vm_compute. reflexivity. Qed.
    Lemma ns_b_ok : forallb anyb ns_b = true. Proof. vm_compute. reflexivity. Qed.
    Lemma ns_c_ok : forallb (keep_ok senv) (ns_c ++ [re_always_split]) = true. Proof. vm_compute. reflexivity. Qed.
    Lemma reattach_ok : forallb (keep_ok []) re_reattach = true. Proof. vm_compute. reflexivity. Qed.
    Lemma restore_form : re_restore = map (fun p => mk (word (fst p)) false [TLit (snd p)]) senv. Proof. reflexivity. Qed.
    Lemma keys_nodup : NoDup (map fst prot).
    Proof.
      destruct HN as [-> _]. apply FinFun.Injective_map_NoDup; [|apply seq_NoDup]. intros a b E. apply (key_prefix a b [] []). rewrite E. reflexivity.
    Qed.
    Lemma senv_nodup : NoDup (map fst senv).
    Proof. repeat constructor; cbn; intuition discriminate. Qed.
    Lemma fold_cons (ru : rule) rules s : fold_left (apply_rule U) (ru :: rules) s = fold_left (apply_rule U) rules (apply_rule U s ru).
    Proof. reflexivity. Qed.
    Lemma fold_snoc (ru : rule) rules s : apply_rule U (fold_left (apply_rule U) rules s) ru = fold_left (apply_rule U) (rules ++ [ru]) s.
    Proof. rewrite fold_left_app. reflexivity. Qed.
    Lemma stage_symbols t : dec env1 t d1 -> good U ms d1 -> exists d', dec env2 (apply_rule U (fold_left (apply_rule U) re_no_split t) re_always_split) d' /\ inv d'.
    Proof.
      intros Hd HG. rewrite ns_abc, !fold_left_app, fold_snoc.
      assert (D0 : dec env2 t d1) by (eapply dec_mono; [|exact Hd]; intros x Hx; apply in_app_iff; auto).
      apply (exact_rules _ ns_a_ok) in D0.
      destruct (foot_rules ns_b (fun x Hx => Hx) ns_b_ok _ d1 D0 HG (fun _ => eq_refl)) as (e1 & D1 & G1 & Q1).
      assert (I1 : inv e1) by (split; [exact G1|intros q; rewrite (Q1 q); reflexivity]).
      exact (keep_rules U OK rs RS ms Q (nsp U d1) senv env2 (ns_c ++ [re_always_split]) FE2 HI2 ns_c_ok _ e1 D1 I1).
    Qed.
    Lemma stage_segment s d : dec env2 s d -> inv d -> exists d', dec env2 (fold_left (apply_rule U) re_segment_off s) d' /\ inv d'.
    Proof.
      intros Hd Hi. rewrite seg_split, !fold_cons. destruct (stage_cannot s d Hd Hi) as (e4 & D4 & I4). destruct (stage_star _ e4 D4 I4) as (e5 & D5 & I5).
      exact (keep_rules U OK rs RS ms Q (nsp U d1) senv env2 (skipn 2 re_segment_off) FE2 HI2 seg_ok _ e5 D5 I5).
    Qed.
    Lemma stage_restore s d : dec env2 s d -> inv d -> dec env1 (fold_left (apply_rule U) re_restore s) d.
    Proof. intros Hd Hi. rewrite restore_form. exact (restore_static senv (fun x Hx => Hx) senv_nodup s d (g_noK _ _ _ (proj1 Hi)) Hd). Qed.
    Lemma stage_reattach s d : dec env1 s d -> inv d -> exists d', dec env1 (fold_left (apply_rule U) re_reattach s) d' /\ inv d'.
    Proof. intros Hd Hi. exact (keep_rules U OK rs RS ms Q (nsp U d1) [] env1 re_reattach (framed_all [] ltac:(intros x [])) ltac:(intros x []) reattach_ok s d Hd Hi). Qed.
    Lemma stage_keys s d : dec env1 s d -> dec env0 (fold_left (fun t '(key, value) => replace t key value) prot s) d.
    Proof. intros Hd. apply (restore_keys rs RS env0 E0 prot); [eapply numbered_keys; exact HN|apply keys_nodup|exact (proj2 HN)|exact Hd]. Qed.
    Lemma after_protect_dec t : dec env1 t d1 -> good U ms d1 -> exists d', dec env0 (after_protect t) d' /\ inv d'.
    Proof.
      intros Hd HG. unfold after_protect. destruct (stage_symbols t Hd HG) as (e2 & D2 & I2). revert D2. generalize (apply_rule U (fold_left (apply_rule U) re_no_split t) re_always_split). intros s2 D2.
      destruct (stage_dots U OK rs RS ms Q (nsp U d1) env2 s2 e2 FE2 D2 I2) as (e3 & D3 & I3). revert D3. change [32%N] with (lit " "). generalize (join (lit " ") (flat_map (split_dots U) (words s2))). intros s3 D3.
      destruct (stage_segment s3 e3 D3 I3) as (e6 & D6 & I6). revert D6. generalize (fold_left (apply_rule U) re_segment_off s3). intros s6 D6.
      destruct (stage_words U OK rs RS ms Q (nsp U d1) env2 s6 e6 FE2 D6 I6) as (e7 & D7 & I7). revert D7. change [32%N] with (lit " "). generalize (join (lit " ") (words s6)). intros s7 D7.
      pose proof (stage_restore s7 e7 D7 I7) as D8. revert D8. generalize (fold_left (apply_rule U) re_restore s7). intros s8 D8.
      destruct (stage_reattach s8 e7 D8 I7) as (e9 & D9 & I9). exists e9. split; [|exact I9]. apply stage_keys. exact D9.
    Qed.
  End Prot.

  Lemma tokenize_stages t k prot t2 ms (Q : Prop) d1 toks : t <> [] -> protect_text U (sanitize U tk_sanitization t) = Ok (prot, t2) -> numbered rs k prot ->
    (Q -> forall n q, numtext U n -> (q = 39%N \/ q = 34%N) -> ~ factor (map C (n ++ [q])) d1) -> (Q -> ~ has [42; 42]%N (nsp U d1)) ->
    dec (env_of prot ++ env0) t2 d1 -> good U ms d1 -> tokenize U t = Ok toks ->
    exists T d, toks = words T /\ dec env0 T d /\ good U ms d /\ (Q -> nsp U d = nsp U d1).
  Proof.
    intros Hne HP HN Q1 Q2 Hd HG HT. destruct (after_protect_dec k prot HN ms Q d1 Q1 Q2 t2 Hd HG) as (d & D & [G E]). exists (after_protect prot t2), d. split; [|auto].
    unfold tokenize in HT. destruct t as [|c t]; [congruence|]. rewrite HP in HT. cbn [rbind] in HT. apply ok_inj in HT. rewrite <- HT. reflexivity.
  Qed.
End TokDec.
