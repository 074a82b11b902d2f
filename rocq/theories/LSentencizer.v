(** Proofs about sanitization and the sentencizer. *)
From Coq Require Import Ascii String.
From Coq Require Import List NArith ZArith Arith Bool Lia.
From Verif Require Import PyBase Regex MTokenizer MSentencizer SText LBase LText LRegex LSub LSave.
Import ListNotations.
Local Open Scope nat_scope.

(** ** whitespace normal form *)
Section Normal.
  Context (U : udb) (OK : udb_ok U).
  Notation words := (split_ws (u_space U)).
  Definition is_word (t : str) : Prop := t <> [] /\ Forall (fun c => u_space U c = false) t.
  Lemma space_is_space : u_space U 32%N = true.
  Proof. rewrite (ok_space _ OK) by reflexivity. reflexivity. Qed.
  Ltac sp_absurd := unfold space in *; pose proof space_is_space; congruence.
  Lemma join_cons w ws : ws <> [] -> join [32%N] (w :: ws) = w ++ 32%N :: join [32%N] ws.
  Proof. destruct ws; [congruence|reflexivity]. Qed.
  Lemma join_snoc ws w : ws <> [] -> join [32%N] (ws ++ [w]) = join [32%N] ws ++ 32%N :: w.
  Proof.
    induction ws as [|x [|y ws] IH]; intros H; [congruence|reflexivity|]. cbn [app]. rewrite join_cons by discriminate. change (y :: ws ++ [w]) with ((y :: ws) ++ [w]).
    rewrite IH by discriminate. rewrite (join_cons x (y :: ws)) by discriminate. rewrite <- app_assoc. reflexivity.
  Qed.
  Lemma word_start w s : is_word w -> w ++ s = 32%N :: s -> False.
  Proof. intros [H1 H2] E. destruct w as [|c w]; [congruence|]. injection E as -> _. inversion H2; subst. sp_absurd. Qed.
  Lemma joined_normal ws : Forall is_word ws -> normal_form U (join [32%N] ws).
  Proof.
    intros H. split; [|split; [|split]].
    - induction H as [|w ws [_ Hw] H IH]; cbn; [tauto|]. intros c Hc Hs. rewrite Forall_forall in Hw. destruct ws as [|w' ws].
      + specialize (Hw _ Hc). congruence.
      + apply in_app_iff in Hc. destruct Hc as [Hc|[Hc|Hc]]; [specialize (Hw _ Hc); congruence|symmetry; exact Hc|apply IH; assumption].
    - intros s' E. destruct H as [|w ws [Hn Hw] H]; [discriminate|]. destruct w as [|c w]; [congruence|]. inversion Hw; subst.
      destruct ws; cbn in E; injection E as -> _; sp_absurd.
    - intros s' E. destruct ws as [|w0 ws0] eqn:Ew using rev_ind; [destruct s'; discriminate|]. clear IHws0. apply Forall_app in H. destruct H as [_ H]. inversion H as [|? ? [Hn Hw] _]; subst.
      destruct (exists_last Hn) as (q & c & ->). apply Forall_app in Hw. destruct Hw as [_ Hw]. inversion Hw; subst.
      destruct ws0 as [|y l]; [cbn in E|rewrite join_snoc in E by discriminate; change (join [32%N] (y :: l) ++ 32%N :: q ++ [c]) with (join [32%N] (y :: l) ++ (32%N :: q) ++ [c]) in E; rewrite app_assoc in E];
        apply app_inj_tail in E; destruct E as [_ ->]; sp_absurd.
    - induction H as [|w ws [Hn Hw] H IH]; intros a b E; [destruct a; discriminate|]. destruct ws as [|w' ws].
      + cbn in E. rewrite Forall_forall in Hw. specialize (Hw 32%N). rewrite space_is_space in Hw. discriminate Hw. rewrite E. apply in_app_iff. right. left. reflexivity.
      + rewrite join_cons in E by discriminate. revert a E. induction w as [|c w IHw]; [congruence|]. intros a E. inversion Hw; subst.
        destruct a as [|d a]; cbn [app] in E; injection E as -> E; [sp_absurd|].
        destruct w as [|c' w].
        * cbn [app] in E. destruct a as [|d' a]; cbn [app] in E.
          -- injection E as E. inversion H as [|? ? [Hn' Hw'] _]; subst. destruct w' as [|e w']; [congruence|]. inversion Hw'; subst.
             destruct ws; cbn in E; injection E as -> _; sp_absurd.
          -- injection E as _ E. apply (IH a b E).
        * apply (IHw ltac:(discriminate) ltac:(assumption) a E).
  Qed.
  Lemma words_are_words s : Forall is_word (words s).
  Proof. apply split_ws_words. Qed.
  Lemma words_join ws : Forall is_word ws -> words (join [32%N] ws) = ws.
  Proof. intros H. apply split_ws_join; [exact space_is_space|]. exact H. Qed.
  Lemma sanitize_words rules text : exists ws, Forall is_word ws /\ sanitize U rules text = join [32%N] ws.
  Proof. eexists. split; [|reflexivity]. apply words_are_words. Qed.
  Lemma words_lstrip s : words (lstrip (u_space U) s) = words s.
  Proof. induction s as [|c s IH]; cbn [lstrip]; [reflexivity|]. destruct (u_space U c) eqn:E; [|reflexivity]. rewrite IH. symmetry. apply split_ws_cons_space. exact E. Qed.
  Lemma words_trail s r : Forall (fun c => u_space U c = true) r -> words (s ++ r) = words s.
  Proof.
    intros H. destruct H as [|c r Hc H]; [rewrite app_nil_r; reflexivity|]. rewrite split_ws_app_space by exact Hc.
    assert (E : words r = []) by (clear Hc; induction H as [|d r Hd H IH]; [reflexivity|rewrite split_ws_cons_space by exact Hd; exact IH]). rewrite E. apply app_nil_r.
  Qed.
  Lemma lstrip_split s : exists p, s = p ++ lstrip (u_space U) s /\ Forall (fun c => u_space U c = true) p.
  Proof. induction s as [|c s (p & E & H)]; cbn; [exists []; auto|]. destruct (u_space U c) eqn:Ec; [exists (c :: p); cbn; rewrite <- E; auto|exists []; auto]. Qed.
  Lemma words_strip s : words (strip (u_space U) s) = words s.
  Proof.
    unfold strip. rewrite <- (words_lstrip s). destruct (lstrip_split (rev (lstrip (u_space U) s))) as (p & E & H).
    set (t := lstrip (u_space U) (rev (lstrip (u_space U) s))) in *. rewrite <- (rev_involutive (lstrip (u_space U) s)), E, rev_app_distr.
    symmetry. apply words_trail. apply Forall_rev. exact H.
  Qed.
  Lemma sanitize_none text : sanitize U [] text = join [32%N] (words text).
  Proof. unfold sanitize. cbn [fold_left]. rewrite words_strip. reflexivity. Qed.
End Normal.

(** ** sentence enders *)
Section Enders.
  Context (U : udb).
  Lemma cset_list l c : cset_match U false (cls (map (fun c => CRange c c) l)) c = true <-> In c l.
  Proof.
    unfold cset_match, cls. cbn [cs_neg cs_items]. rewrite xorb_false_l. rewrite existsb_exists. split.
    - intros (i & Hi & E). apply in_map_iff in Hi. destruct Hi as (d & <- & Hd). cbn in E. rewrite orb_false_r, andb_true_iff, !N.leb_le in E. replace c with d by lia. exact Hd.
    - intros H. exists (CRange c c). split; [apply (in_map (fun c => CRange c c)); exact H|]. cbn. rewrite !N.leb_refl. reflexivity.
  Qed.
  Lemma plus_lang ic cs x : lang U ic (plus (Chr cs)) x <-> x <> [] /\ Forall (fun c => cset_match U ic cs c = true) x.
  Proof.
    split; [apply lang_plus_chr|]. intros [Hn H]. destruct H as [|c x Hc H]; [exfalso; apply Hn; reflexivity|]. exists [c], x. split; [reflexivity|]. split; [exists c; auto|].
    exists (map (fun c => [c]) x). split; [clear; induction x as [|d x IH]; [reflexivity|cbn; f_equal; exact IH]|]. clear - H. induction H; cbn; constructor; eauto.
  Qed.
  Lemma star_lang ic g cs x : lang U ic (Star g (Chr cs)) x <-> Forall (fun c => cset_match U ic cs c = true) x.
  Proof.
    split; [apply lang_star_chr|]. intros H. exists (map (fun c => [c]) x). split; [clear; induction x as [|d x IH]; [reflexivity|cbn; f_equal; exact IH]|]. clear - H. induction H; cbn; constructor; eauto.
  Qed.
  Lemma fullmatch_lang ic r s : pure r = true -> (fullmatch U ic r s <> None <-> lang U ic r s).
  Proof.
    intros Hp. split.
    - intros H. destruct (fullmatch U ic r s) as [st|] eqn:E; [|congruence]. apply fullmatch_some in E. destruct E as [R E]. apply mrel_lang in R. destruct R as (x & A & _ & L).
      cbn in A. rewrite E, app_nil_r in A. subst. exact L.
    - intros L E. destruct (lang_mrel U ic r Hp s L [] [] []) as (cp & R). rewrite app_nil_r in R. unfold fullmatch in E. pose proof (m_none _ _ _ _ _ E _ R) as F. discriminate.
  Qed.
  Lemma is_ender_spec t : is_ender U t = true <-> ends_sentence t \/ t = paragraph.
  Proof.
    unfold is_ender. transitivity (fullmatch U false re_sent_enders t <> None); [destruct (fullmatch U false re_sent_enders t); split; intros; discriminate || congruence|].
    rewrite fullmatch_lang by reflexivity. unfold re_sent_enders. cbn [lang].
    change (lang U false (plus (Chr (cls (one ".?!:")))) t \/ lang U false (ch 182) t <-> ends_sentence t \/ t = paragraph). rewrite plus_lang.
    assert (E1 : (t <> [] /\ Forall (fun c => cset_match U false (cls (one ".?!:")) c = true) t) <-> ends_sentence t).
    { unfold ends_sentence, one. split; intros [H1 H2]; (split; [exact H1|]); eapply Forall_impl; try exact H2; intros c; apply cset_list. }
    assert (E2 : lang U false (ch 182) t <-> t = paragraph).
    { unfold ch. cbn [lang]. split; [intros (c & -> & Hc); apply cc_exact in Hc; subst; reflexivity|intros ->; exists 182%N; split; [reflexivity|apply cc_exact; reflexivity]]. }
    rewrite E1, E2. reflexivity.
  Qed.
  Lemma split_loop_spec tokens : forall cur, Forall inner cur -> sentences (cur ++ tokens) (split_loop U cur tokens).
  Proof.
    induction tokens as [|t ts IH]; intros cur Hc; cbn [split_loop].
    - rewrite app_nil_r. destruct cur; [constructor|]. apply cut_last; [discriminate|exact Hc].
    - destruct (is_ender U t) eqn:E.
      + destruct (str_eqb t [182%N]) eqn:Et.
        * apply str_eqb_eq in Et. subst t. apply cut_mark; [exact Hc|reflexivity|apply (IH [])]; constructor.
        * apply is_ender_spec in E. destruct E as [E|E]; [|rewrite E in Et; discriminate Et]. apply cut_ender; [exact Hc|exact E|apply (IH [])]; constructor.
      + change (t :: ts) with ([t] ++ ts). rewrite app_assoc. apply IH. apply Forall_app. split; [exact Hc|]. constructor; [|constructor].
        split; intros H; assert (is_ender U t = true) by (apply is_ender_spec; auto); congruence.
  Qed.
End Enders.
Lemma sentences_tokens tokens ss : sentences tokens ss -> concat ss = filter (fun t => negb (str_eqb t paragraph)) tokens.
Proof.
  assert (K : forall s, Forall inner s -> filter (fun t => negb (str_eqb t paragraph)) s = s).
  { induction 1 as [|t s [_ Ht] H IH]; cbn; [reflexivity|]. destruct (str_eqb t paragraph) eqn:E; [apply str_eqb_eq in E; contradiction|]. cbn. rewrite IH. reflexivity. }
  induction 1 as [|s Hn Hs|s e rest ss Hs He H IH|s p rest ss Hs Hp H IH]; cbn [concat].
  - reflexivity.
  - rewrite app_nil_r, K by assumption. reflexivity.
  - rewrite filter_app, K by assumption. cbn [filter]. destruct (str_eqb e paragraph) eqn:E; [apply str_eqb_eq in E; subst e; destruct He as [_ He]; inversion He as [|? ? Hi]; cbn in Hi; repeat destruct Hi as [Hi|Hi]; discriminate Hi || destruct Hi|].
    cbn [negb]. rewrite IH, <- app_assoc. reflexivity.
  - subst p. rewrite filter_app, K by assumption. cbn [filter]. rewrite IH. reflexivity.
Qed.
Lemma ender_not_para e : ends_sentence e -> e <> paragraph.
Proof. intros [_ He] ->. inversion He as [|? ? Hi]; cbn in Hi; repeat destruct Hi as [Hi|Hi]; discriminate Hi || destruct Hi. Qed.
(** the relation determines the sentences *)
Section Cut.
  Context {A : Type} (ender mark : A -> Prop) (EM : forall t, ender t -> mark t -> False).
  Notation plain := (fun t => ~ ender t /\ ~ mark t).
  Lemma plain_span (s s' r r' : list A) : s ++ r = s' ++ r' -> Forall plain s -> Forall plain s' ->
    (forall t q, r = t :: q -> ~ plain t) -> (forall t q, r' = t :: q -> ~ plain t) -> s = s' /\ r = r'.
  Proof.
    revert s'; induction s as [|x s IH]; intros [|y s'] E H H' O O'; cbn [app] in E; [auto| | |].
    - inversion H'; subst. exfalso. eapply O; eauto.
    - inversion H; subst. exfalso. eapply O'; eauto.
    - injection E as <- E. inversion H; inversion H'; subst. destruct (IH s' E) as [-> ->]; auto.
  Qed.
  Lemma cut_fun tokens ss ss' : cut ender mark tokens ss -> cut ender mark tokens ss' -> ss = ss'.
  Proof.
    assert (NE : forall e, ender e -> ~ plain e) by (intros e He [H _]; contradiction).
    assert (NP : forall p, mark p -> ~ plain p) by (intros p Hp [_ H]; contradiction).
    assert (INV : forall tokens ss, cut ender mark tokens ss -> exists s r, tokens = s ++ r /\ Forall plain s /\ (forall t q, r = t :: q -> ~ plain t) /\
       ((r = [] /\ ss = match s with [] => [] | _ => [s] end) \/ exists e q ss1, r = e :: q /\ cut ender mark q ss1 /\ ((ender e /\ ss = (s ++ [e]) :: ss1) \/ (mark e /\ ss = s :: ss1)))).
    { intros tk s0 H. destruct H as [|s Hn Hs|s e rest ss1 Hs He H|s p rest ss1 Hs Hp H].
      - exists [], []. repeat split; auto; try discriminate. 
      - exists s, []. rewrite app_nil_r. repeat split; auto; try discriminate. left. split; [reflexivity|]. destruct s; congruence.
      - exists s, (e :: rest). split; [reflexivity|]. split; [exact Hs|]. split; [intros t q Eq; injection Eq as <- _; auto|]. right. exists e, rest, ss1. auto.
      - exists s, (p :: rest). split; [reflexivity|]. split; [exact Hs|]. split; [intros t q Eq; injection Eq as <- _; auto|]. right. exists p, rest, ss1. auto. }
    intros H; revert ss'. induction H as [|s Hn Hs|s e rest ss1 Hs He H IH|s p rest ss1 Hs Hp H IH]; intros ss' H'; apply INV in H'; destruct H' as (s' & r' & E & Hs' & Hr & C).
    - symmetry in E. apply app_eq_nil in E. destruct E as [-> ->]. destruct C as [[_ ->]|(e & q & ? & E & _)]; [reflexivity|discriminate].
    - rewrite <- (app_nil_r s) in E. destruct (plain_span s s' [] r' E Hs Hs') as [<- <-]; [discriminate|exact Hr|]. destruct C as [[_ ->]|(e & q & ? & E' & _)]; [destruct s; congruence|discriminate].
    - destruct (plain_span s s' (e :: rest) r' E Hs Hs') as [<- <-]; [intros t q Eq; injection Eq as <- _; auto|exact Hr|].
      destruct C as [[E' _]|(e' & q & ss2 & E' & H2 & [[_ ->]|[Hm _]])]; [discriminate| |exfalso; injection E' as E' _; subst; exact (EM _ He Hm)].
      injection E' as <- <-. f_equal. auto.
    - destruct (plain_span s s' (p :: rest) r' E Hs Hs') as [<- <-]; [intros t q Eq; injection Eq as <- _; auto|exact Hr|].
      destruct C as [[E' _]|(e' & q & ss2 & E' & H2 & [[Hc _]|[_ ->]])]; [discriminate|exfalso; injection E' as E' _; subst; exact (EM _ Hc Hp)|].
      injection E' as _ <-. f_equal. auto.
  Qed.
End Cut.
Lemma cut_transport {A B} (R : A -> B -> Prop) (e1 m1 : A -> Prop) (e2 m2 : B -> Prop) :
  (forall a b, R a b -> (e1 a <-> e2 b)) -> (forall a b, R a b -> (m1 a <-> m2 b)) ->
  forall l2 ss2, cut e2 m2 l2 ss2 -> forall l1, Forall2 R l1 l2 -> exists ss1, cut e1 m1 l1 ss1 /\ Forall2 (Forall2 R) ss1 ss2.
Proof.
  intros HE HM.
  assert (K : forall l2 l1, Forall2 R l1 l2 -> Forall (fun t => ~ e2 t /\ ~ m2 t) l2 -> Forall (fun t => ~ e1 t /\ ~ m1 t) l1).
  { induction 1 as [|a b l1 l2 Hab H IH]; intros F; inversion F as [|? ? [F1 F2] F3]; subst; constructor; auto. rewrite (HE _ _ Hab), (HM _ _ Hab). auto. }
  induction 1 as [|s Hn Hs|s e rest ss Hs He H IH|s p rest ss Hs Hp H IH]; intros l1 F.
  - inversion F; subst. exists []. split; constructor.
  - exists [l1]. split; [apply cut_last; [|eapply K; eauto]|constructor; [exact F|constructor]]. intros ->. inversion F; subst. congruence.
  - apply Forall2_app_inv_r in F. destruct F as (s1 & r1 & F1 & F2 & ->). inversion F2 as [|a ? r2 ? Ha F3]; subst. destruct (IH r2 F3) as (ss1 & C & F4).
    exists ((s1 ++ [a]) :: ss1). split; [apply cut_ender; [eapply K; eauto|apply (HE _ _ Ha); exact He|exact C]|]. constructor; [apply Forall2_app; [exact F1|constructor; [exact Ha|constructor]]|exact F4].
  - apply Forall2_app_inv_r in F. destruct F as (s1 & r1 & F1 & F2 & ->). inversion F2 as [|a ? r2 ? Ha F3]; subst. destruct (IH r2 F3) as (ss1 & C & F4).
    exists (s1 :: ss1). split; [apply cut_mark; [eapply K; eauto|apply (HM _ _ Ha); exact Hp|exact C]|]. constructor; assumption.
Qed.
Lemma sentences_fun tokens ss ss' : sentences tokens ss -> sentences tokens ss' -> ss = ss'.
Proof. apply cut_fun. intros t He Hp. exact (ender_not_para t He Hp). Qed.

(** ** blocks, collapsed spaces, marks *)
Section Scans.
  Context (U : udb) (OK : udb_ok U).
  Lemma cset_sp ic c : cset_match U ic (cls [CSpace]) c = u_space U c.
  Proof. unfold cset_match, cls. cbn. rewrite orb_false_r. destruct (u_space U c); reflexivity. Qed.
  Lemma sp_lang ic x : lang U ic sp x <-> exists c, x = [c] /\ u_space U c = true.
  Proof. unfold sp. cbn [lang]. split; intros (c & E & H); exists c; rewrite cset_sp in *; auto. Qed.
  Lemma spaces_lang ic x : lang U ic (star sp) x <-> Forall (fun c => u_space U c = true) x.
  Proof. unfold star, sp. rewrite star_lang. split; apply Forall_impl; intros c; rewrite cset_sp; auto. Qed.
  Lemma nl_cset c : cset_match U false (cls [CRange 9 9; CRange 10 10; CRange 13 13]) c = true <-> newline c.
  Proof.
    change [CRange 9 9; CRange 10 10; CRange 13 13] with (map (fun c => CRange c c) [9; 10; 13]%N). rewrite cset_list. unfold newline. cbn. split; intros H; intuition.
  Qed.
  Lemma newline_space c : newline c -> u_space U c = true.
  Proof. intros [->|[->| ->]]; rewrite (ok_space _ OK) by reflexivity; reflexivity. Qed.
  Lemma nl_lang x : lang U false re_newline x <-> Forall (fun c => u_space U c = true) x /\ exists c, In c x /\ newline c.
  Proof.
    unfold re_newline. cbn [seqs]. split.
    - intros (p & q & -> & Hp & r & s & -> & Hr & Hs). apply spaces_lang in Hp, Hs. apply plus_lang in Hr. destruct Hr as [Hn Hr].
      assert (Hr2 : Forall newline r) by (eapply Forall_impl; [|exact Hr]; intros c; apply nl_cset). split.
      + rewrite !Forall_app. repeat split; auto. eapply Forall_impl; [|exact Hr2]. exact newline_space.
      + destruct Hr2 as [|c r Hc Hr2]; [exfalso; apply Hn; reflexivity|]. exists c. split; [|exact Hc]. apply in_app_iff. right. left. reflexivity.
    - intros [H (c & Hc & Hn)]. apply in_split in Hc. destruct Hc as (p & s & ->). rewrite Forall_app in H. destruct H as [Hp H]. inversion H; subst.
      exists p, (c :: s). split; [reflexivity|]. split; [apply spaces_lang; exact Hp|]. exists [c], s. split; [reflexivity|]. split; [|apply spaces_lang; assumption].
      apply plus_lang. split; [discriminate|]. constructor; [apply nl_cset; exact Hn|constructor].
  Qed.
  Lemma m_seq ic r1 r2 st k : m U ic (Seq r1 r2) st k = m U ic r1 st (fun st' => m U ic r2 st' k).
  Proof. reflexivity. Qed.
  Lemma no_match_here r b a x y : pure r = true -> match_at U false r b a = None -> a = x ++ y -> ~ lang U false r x.
  Proof. intros. eapply no_match_lang; eauto. Qed.
  Lemma newline_blocks b a ps tl : scan U false re_newline b a ps tl -> split_blocks U a (map fst ps ++ [tl]).
  Proof.
    assert (L1 : forall c, newline c -> lang U false re_newline [c]).
    { intros c Hc. apply nl_lang. split; [constructor; [apply newline_space; exact Hc|constructor]|]. exists c. split; [left; reflexivity|exact Hc]. }
    induction 1 as [b a Hno|b pre w y st ps tl Hp Hm Hw Lw Ha Hb Hs IH]; cbn [map fst app].
    - apply blocks_last. intros c Hc Hn. apply in_split in Hc. destruct Hc as (x & z & ->).
      apply (no_match_here re_newline (rev x ++ b) (c :: z) [c] z eq_refl); [apply (Hno x (c :: z) eq_refl)|reflexivity|apply L1; exact Hn].
    - apply nl_lang in Lw. destruct Lw as [Lw Ln]. apply blocks_cons; [| |rewrite Forall_forall in Lw; exact Lw|exact Ln| |exact IH].
      + intros c Hc Hn. apply in_split in Hc. destruct Hc as (x & z & ->).
        apply (no_match_here re_newline (rev x ++ b) ((c :: z) ++ w ++ y) [c] (z ++ w ++ y) eq_refl); [apply (Hp x (c :: z) eq_refl); discriminate|reflexivity|apply L1; exact Hn].
      + intros b' c ->. destruct (u_space U c) eqn:Ec; [|reflexivity]. exfalso.
        apply (no_match_here re_newline (rev b' ++ b) ([c] ++ w ++ y) (c :: w) y eq_refl); [apply (Hp b' [c] eq_refl); discriminate|reflexivity|].
        apply nl_lang. split; [constructor; assumption|]. destruct Ln as (d & Hd & Hn). exists d. split; [right; exact Hd|exact Hn].
      + intros c rest' Ey. unfold match_at in Hm. unfold re_newline in Hm. cbn [seqs] in Hm. cbn [m] in Hm. change (m U false (star sp)) with (m U false (Star true sp)) in *.
        apply m_some in Hm. destruct Hm as (st1 & _ & Hm). apply m_some in Hm. destruct Hm as (st2 & _ & Hm). apply greedy_stop in Hm. rewrite Ha, Ey in Hm. rewrite cset_sp in Hm. exact Hm.
  Qed.
  Theorem split_newlines text : split_blocks U text (re_split U false re_newline text).
  Proof. destruct (split_scan U false re_newline text eq_refl) as (ps & tl & H & ->). eapply newline_blocks. exact H. Qed.

  Lemma collapse_true y : (forall c y', y = c :: y' -> u_space U c = false) -> collapse U true y = collapse U false y.
  Proof. intros H. destruct y as [|c y]; [reflexivity|]. cbn. rewrite (H c y eq_refl). reflexivity. Qed.
  Lemma collapse_run w y : Forall (fun c => u_space U c = true) w -> collapse U true (w ++ y) = collapse U true y.
  Proof. induction 1 as [|c w Hc H IH]; cbn; [reflexivity|]. rewrite Hc. exact IH. Qed.
  Lemma collapse_word w y : Forall (fun c => u_space U c = false) w -> collapse U false (w ++ y) = w ++ collapse U false y.
  Proof. induction 1 as [|c w Hc H IH]; cbn; [reflexivity|]. rewrite Hc, IH. reflexivity. Qed.
  Lemma multi_spaces_scan b a ps tl : scan U false re_multi_spaces b a ps tl -> subst_of [TLit (lit " ")] ps tl = collapse U false a.
  Proof.
    assert (L1 : forall c, u_space U c = true -> lang U false re_multi_spaces [c]).
    { intros c Hc. exists [c], []. split; [reflexivity|]. split; [apply sp_lang; eauto|apply spaces_lang; constructor]. }
    induction 1 as [b a Hno|b pre w y st ps tl Hp Hm Hw Lw Ha Hb Hs IH].
    - unfold subst_of. cbn. rewrite <- (app_nil_r a) at 2. rewrite collapse_word; [cbn; rewrite app_nil_r; reflexivity|]. apply Forall_forall. intros c Hc. destruct (u_space U c) eqn:Ec; [|reflexivity]. exfalso.
      apply in_split in Hc. destruct Hc as (x & z & ->). apply (no_match_here re_multi_spaces (rev x ++ b) (c :: z) [c] z eq_refl); [apply (Hno x (c :: z) eq_refl)|reflexivity|apply L1; exact Ec].
    - rewrite collapse_word.
      + unfold subst_of. cbn [flat_map fst snd expand app]. rewrite <- !app_assoc. f_equal.
        assert (Hws : Forall (fun c => u_space U c = true) w).
        { destruct Lw as (p & q & -> & Hpp & Hq). apply sp_lang in Hpp. destruct Hpp as (c & -> & Hc). apply spaces_lang in Hq. constructor; assumption. }
        destruct Hws as [|c w Hc Hws]; [exfalso; apply Hw; reflexivity|]. cbn [app collapse]. rewrite Hc. cbn [app]. rewrite collapse_run by exact Hws.
        rewrite collapse_true; [rewrite <- IH; reflexivity|]. intros d y' Ey. unfold match_at, re_multi_spaces, plus in Hm. rewrite m_seq in Hm.
        apply m_some in Hm. destruct Hm as (st1 & _ & Hm). apply (greedy_stop U false (cls [CSpace])) in Hm. rewrite Ha, Ey in Hm. rewrite cset_sp in Hm. exact Hm.
      + apply Forall_forall. intros c Hc. destruct (u_space U c) eqn:Ec; [|reflexivity]. exfalso. apply in_split in Hc. destruct Hc as (x & z & ->).
        apply (no_match_here re_multi_spaces (rev x ++ b) ((c :: z) ++ w ++ y) [c] (z ++ w ++ y) eq_refl); [apply (Hp x (c :: z) eq_refl); discriminate|reflexivity|apply L1; exact Ec].
  Qed.
  Theorem multi_spaces text : sub U false re_multi_spaces [TLit (lit " ")] text = collapse U false text.
  Proof. destruct (sub_scan U false re_multi_spaces [TLit (lit " ")] text eq_refl) as (ps & tl & H & ->). eapply multi_spaces_scan. exact H. Qed.

  Lemma app_inj_len {A} (x y z w : list A) : x ++ z = y ++ w -> length z = length w -> x = y /\ z = w.
  Proof.
    revert y. induction x as [|a x IH]; intros [|b y] E H; cbn in E.
    - auto.
    - subst. cbn in H. rewrite app_length in H. lia.
    - subst. cbn in H. rewrite app_length in H. lia.
    - injection E as -> E. apply IH in E; [|exact H]. destruct E as [-> ->]. auto.
  Qed.
  (** quoted and bracketed parts *)
  Definition re_block (o c : char) : re := seqs [ch o; Star false (Chr any_char); ch c].
  Lemma any_cset c : cset_match U false any_char c = true <-> c <> 10%N.
  Proof. unfold cset_match, any_char, ncls. cbn. rewrite !orb_false_r. split; [intros H -> ; discriminate H|]. intros H. destruct ((10 <=? c)%N && (c <=? 10)%N) eqn:E; [|reflexivity]. apply andb_true_iff in E. rewrite !N.leb_le in E. exfalso. apply H. lia. Qed.
  Lemma block_lang o c x : lang U false (re_block o c) x <-> exists y, x = [o] ++ y ++ [c] /\ ~ In 10%N y.
  Proof.
    unfold re_block. cbn [seqs]. split.
    - intros (p & q & -> & (d & -> & Hd) & y & z & -> & Hy & (e & -> & He)). apply cc_exact in Hd, He. subst d e. exists y. split; [reflexivity|].
      apply star_lang in Hy. rewrite Forall_forall in Hy. intros Hi. apply Hy, any_cset in Hi. congruence.
    - intros (y & -> & Hy). exists [o], (y ++ [c]). split; [reflexivity|]. split; [exists o; split; [reflexivity|apply cc_exact; reflexivity]|]. exists y, [c]. split; [reflexivity|].
      split; [apply star_lang, Forall_forall; intros d Hd; apply any_cset; intros ->; contradiction|]. exists c. split; [reflexivity|apply cc_exact; reflexivity].
  Qed.
  Definition part (p : str * (str * mst)) : str * str := (fst p, removelast (List.tl (fst (snd p)))).
  Lemma tl_removelast (o : char) x c : removelast (List.tl ([o] ++ x ++ [c])) = x.
  Proof. cbn. apply removelast_last. Qed.
  Lemma block_scan o c b a ps tl : scan U false (re_block o c) b a ps tl -> ~ In 10%N a ->
    parts_of o c a (map part ps) tl /\ Forall (fun p => exists inside, fst (snd p) = [o] ++ inside ++ [c]) ps.
  Proof.
    induction 1 as [b a Hno|b pre w y st ps tl Hp Hm Hw Lw Ha Hb Hs IH]; intros Hnl.
    - split; [|constructor]. apply parts_none. intros x y z ->. apply (no_match_here (re_block o c) (rev x ++ b) ([o] ++ y ++ [c] ++ z) ([o] ++ y ++ [c]) z eq_refl).
      + apply Hno. reflexivity.
      + rewrite <- !app_assoc. reflexivity.
      + apply block_lang. exists y. split; [reflexivity|]. intros H. apply Hnl. rewrite !in_app_iff. auto.
    - destruct (IH ltac:(intros H; apply Hnl; rewrite !in_app_iff; auto)) as [I1 I2]. pose proof Lw as Lw0. apply block_lang in Lw. destruct Lw as (inside & Ew & Hin).
      split; [|constructor; [exists inside; exact Ew|exact I2]]. cbn [map]. unfold part at 1. cbn [fst snd]. rewrite Ew, tl_removelast. subst w. rewrite <- !app_assoc. apply parts_some; [| |exact I1].
      + intros Ho. apply in_split in Ho. destruct Ho as (x & z & ->).
        (* an earlier opening character would start a match that ends at the closing character of this one *)
        apply (no_match_here (re_block o c) (rev x ++ b) ((o :: z) ++ ([o] ++ inside ++ [c]) ++ y) ([o] ++ (z ++ [o] ++ inside) ++ [c]) y eq_refl).
        * apply (Hp x (o :: z) eq_refl). discriminate.
        * rewrite <- !app_assoc. reflexivity.
        * apply block_lang. eexists. split; [reflexivity|]. intros H. apply Hnl. rewrite !in_app_iff in *. cbn [In] in *. tauto.
      + intros Hc. unfold match_at, re_block in Hm. cbn [seqs] in Hm. rewrite !m_seq in Hm. apply m_some in Hm. destruct Hm as (st1 & M1 & Hm).
        inversion M1 as [|cs o' b1 a1 cp1 Hco E1 E2| | | | | | | | | | | |]; subst. cbn [app] in *.
        apply (lazy_stop U false any_char) in Hm. destruct Hm as (y0 & rest & E1 & _ & E3 & E4). cbn [aft bef caps] in *.
        unfold ch in E3. cbn [m aft bef caps] in E3. destruct rest as [|c0 rest]; [discriminate|]. destruct (cset_match U false (cc c) c0) eqn:Ec; [|discriminate]. apply cc_exact in Ec. subst c0.
        injection E3 as E3. rewrite <- E3 in E1. cbn [aft] in E1. rewrite <- app_assoc in E1. cbn [app] in E1.
        assert (inside = y0 /\ rest = aft st) as [<- _].
        { rewrite <- E3 in *. cbn [aft] in *. apply app_inj_len in E1; [|reflexivity]. destruct E1 as [E1 _]. split; [exact E1|reflexivity]. }
        apply in_split in Hc. destruct Hc as (u & v & ->). specialize (E4 u (c :: v) eq_refl ltac:(discriminate)). unfold ch in E4. cbn [m aft app] in E4.
        replace (cset_match U false (cc c) c) with true in E4 by (symmetry; apply cc_exact; reflexivity). discriminate.
  Qed.
  Lemma inside_slice (o : char) x c : slice (Some 1%Z) (Some (-1)%Z) ([o] ++ x ++ [c]) = x.
  Proof.
    unfold slice. rewrite !app_length. cbn [length]. unfold clamp. replace (Pos.to_nat 1) with 1 by reflexivity.
    cbn [skipn app].
    match goal with |- firstn (?j - ?i) (skipn ?i' _) = _ => replace (j - i) with (length x); [replace i' with 1|] end.
    - cbn [skipn]. rewrite firstn_app, firstn_all, Nat.sub_diag. cbn. apply app_nil_r.
    - destruct (Z.ltb_spec 1 0); [lia|]. lia.
    - destruct (Z.ltb_spec 1 0); [lia|]. destruct (Z.ltb_spec (-1) 0); lia.
  Qed.
  Fixpoint piece_text (ps : list (str * (str * mst))) (tl : str) : str :=
    match ps with [] => tl | (pre, (w, _)) :: ps' => pre ++ w ++ piece_text ps' tl end.
  Lemma scan_piece_text r b a ps tl : scan U false r b a ps tl -> a = piece_text ps tl.
  Proof. induction 1 as [|b pre w y st ps tl Hp Hm Hw Lw Ha Hb Hs IH]; [reflexivity|]. cbn. rewrite <- IH. reflexivity. Qed.
  Lemma find_fold o c starter ender tl : forall ps done off shift ctr, Forall (fun p => exists inside, fst (snd p) = [o] ++ inside ++ [c]) ps ->
    (Z.of_nat off - shift = Z.of_nat (length done))%Z -> exists shift',
    fold_left (find_turn starter ender) (iter_positions off ps) (done ++ piece_text ps tl, shift, ctr) =
    (done ++ marked starter ender (length ctr) (map part ps) tl, shift', ctr ++ map snd (map part ps)).
  Proof.
    induction ps as [|[pre [w st]] ps IH]; intros done off shift ctr Hps Hoff.
    - cbn. exists shift. rewrite app_nil_r. reflexivity.
    - inversion Hps as [|? ? Hw Hps']; subst. destruct Hw as (inside & Hw). cbn [fst snd] in Hw. cbn [iter_positions fold_left piece_text map marked].
      replace (part (pre, (w, st))) with (pre, inside) by (unfold part; cbn [fst snd]; rewrite Hw, tl_removelast; reflexivity).
      set (number := str_of_nat (length ctr)).
      assert (E0 : find_turn starter ender (done ++ pre ++ w ++ piece_text ps tl, shift, ctr) (w, off + length pre, off + length pre + length w) =
        ((done ++ pre ++ mark starter ender (length ctr)) ++ piece_text ps tl, (shift + (Z.of_nat (length w) - 4 - Z.of_nat (length number)))%Z, ctr ++ [inside])).
      { unfold find_turn. rewrite Hw, inside_slice, <- Hw, app_length. cbn [length]. rewrite Nat.add_sub. fold number.
        replace (Z.of_nat (off + length pre) - shift)%Z with (Z.of_nat (length (done ++ pre))) by (rewrite app_length; lia).
        replace (Z.of_nat (off + length pre + length w) - shift)%Z with (Z.of_nat (length (done ++ pre ++ w))) by (rewrite !app_length; lia).
        rewrite slice_to, slice_from. f_equal. f_equal. unfold mark. fold number. rewrite (app_assoc done pre), firstn_app, Nat.sub_diag, firstn_all. cbn [firstn]. rewrite app_nil_r.
        replace ((done ++ pre) ++ w ++ piece_text ps tl) with ((done ++ pre ++ w) ++ piece_text ps tl) by (rewrite <- !app_assoc; reflexivity).
        rewrite skipn_app, Nat.sub_diag, skipn_all. cbn [skipn]. rewrite <- !app_assoc. cbn [app]. reflexivity. }
      destruct (IH (done ++ pre ++ mark starter ender (length ctr)) (off + length pre + length w) (shift + (Z.of_nat (length w) - 4 - Z.of_nat (length number)))%Z (ctr ++ [inside]) Hps') as [shift' E].
      { unfold mark. fold number. rewrite !app_length. cbn [length]. lia. }
      exists shift'. etransitivity; [|etransitivity; [exact E|]]; [f_equal; exact E0|]. rewrite app_length. cbn [length snd]. rewrite Nat.add_1_r. rewrite <- !app_assoc. reflexivity.
  Qed.
  Theorem find_blocks_spec o c starter ender text ctr : ~ In 10%N text -> exists ps tl, parts_of o c text ps tl /\
    find_blocks U (re_block o c) starter ender text ctr = (collapse U false (marked starter ender (length ctr) ps tl), ctr ++ map snd ps).
  Proof.
    intros Hnl. unfold find_blocks, finditer. pose proof (pieces_scan U false (re_block o c) text eq_refl) as Hs. destruct (pieces U false (re_block o c) text) as [ps tl]. cbn [fst snd] in *.
    pose proof (scan_piece_text _ _ _ _ _ Hs) as Et. apply block_scan in Hs; [|exact Hnl]. destruct Hs as [H1 H2].
    exists (map part ps), tl. split; [exact H1|]. rewrite Et. destruct (find_fold o c starter ender tl ps [] 0 0%Z ctr H2 eq_refl) as [shift' E]. cbn [app] in E.
    match goal with |- context [fold_left ?f ?l ?x] => replace (fold_left f l x) with (marked starter ender (length ctr) (map part ps) tl, shift', ctr ++ map snd (map part ps)) by (symmetry; exact E) end.
    rewrite multi_spaces. reflexivity.
  Qed.
End Scans.
