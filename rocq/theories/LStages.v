(** The stages of the tokenizer, on texts with placeholders. *)
From Coq Require Import Ascii String.
From Coq Require Import List NArith ZArith Arith Bool Lia.
From Verif Require Import PyBase Regex MTokenizer SText STok LBase LText LRegex LSub LSentencizer LRestore LTok LTokWords LDecode LGood LRule.
Import ListNotations.
Local Open Scope nat_scope.

(** the placeholders of symbols *)
Definition senv : list (str * str) := [(nsd, lit "."); (nsge, lit " >= "); (nsle, lit " <= "); (rnsge, lit " => "); (rnsle, lit " =< ")].
Definition undo (t : template) : template :=
  map (fun i => match i with TLit s => match find (fun p => str_eqb (fst p) s) senv with Some p => TLit (snd p) | None => i end | _ => i end) t.
Definition keep_ok (sv : list (str * str)) (ru : rule) : bool := base_ok sv ru (undo (r_rep ru)) && same_ok ru (undo (r_rep ru)) && mustb rare_symbols (r_pat ru).

Section Stages.
  Context (U : udb) (OK : udb_ok U) (rs : list char) (RS : incl rs res_chars).
  Notation plainc := (plainc rs).
  Notation rare := (rare rs).
  Notation dec := (dec rs).
  Notation words := (split_ws (u_space U)).

  (** *** words *)
  Lemma fr_space c : In c (fr rs ++ inner_chars) -> u_space U c = false.
  Proof.
    rewrite in_app_iff. intros [[<-|H]|H].
    - rewrite (ok_space _ OK) by lia. reflexivity.
    - apply RS in H. apply (ok_symbols_space _ OK). cbn in H |- *. tauto.
    - assert (F : forallb (fun c => (33 <=? c) && (c <? 127))%N inner_chars = true) by reflexivity. rewrite forallb_forall in F. specialize (F c H). apply andb_true_iff in F. rewrite N.leb_le, N.ltb_lt in F. apply (printable_space U OK); lia.
  Qed.
  Lemma framed_chars a c : framed rs a -> In c a -> In c (fr rs ++ inner_chars).
  Proof.
    intros (f1 & mid & f2 & -> & F1 & F2 & Fm) Hc. rewrite Forall_forall in Fm. cbn in Hc. rewrite in_app_iff in Hc. rewrite in_app_iff. destruct Hc as [<-|[Hc|[<-|[]]]]; auto. apply in_app_iff. auto.
  Qed.
  Lemma space_plain s : (forall c, In c s -> u_space U c = true) -> Forall plainc s.
  Proof. intros H. apply Forall_forall. intros c Hc Hf. specialize (H c Hc). rewrite (fr_space c) in H; [discriminate|]. apply in_app_iff. left. exact Hf. Qed.
  Lemma isp_map s : (forall c, In c s -> u_space U c = true) -> forallb (isp U) (map C s) = true.
  Proof. intros H. apply forallb_forall. intros x Hx. apply in_map_iff in Hx. destruct Hx as (c & <- & Hc). exact (H c Hc). Qed.
  (** a text cut where a whitespace character follows *)
  Lemma dec_space_cut env x y d : framed_env rs env -> (forall c y', y = c :: y' -> u_space U c = true) -> dec env (x ++ y) d -> exists d1 d2, d = d1 ++ d2 /\ dec env x d1 /\ dec env y d2.
  Proof.
    intros FE Hy H. destruct (dec_cut rs env x y d H) as [K|(pre' & a1 & a2 & z' & v & d1 & d2 & _ & -> & _ & N2 & Hi & _)]; [exact K|]. exfalso. destruct a2 as [|c a2]; [congruence|]. specialize (Hy c _ eq_refl). rewrite (fr_space c) in Hy; [discriminate|]. apply (framed_chars (a1 ++ c :: a2)); [eapply FE; eauto|]. apply in_app_iff. right. left. reflexivity.
  Qed.
  Lemma dec_words env : framed_env rs env -> forall t ws, words_of U t ws -> forall d, dec env t d -> exists ds, Forall2 (dec env) ws ds /\ wseq U d ds.
  Proof.
    intros FE t ws W. induction W as [s H|s w rest ws Hs Hn Hw Hr W IH]; intros d Hd.
    - exists []. split; [constructor|]. rewrite <- (app_nil_r s) in Hd. apply dec_plain_inv in Hd; [|exact FE|apply space_plain; exact H]. destruct Hd as (d2 & -> & H2). inversion H2 as [| |a v t d0 Hi _ E]; subst; [|destruct (FE _ _ Hi) as (f1 & mid & f2 & -> & _); discriminate]. rewrite app_nil_r. constructor. apply isp_map. exact H.
    - apply dec_plain_inv in Hd; [|exact FE|apply space_plain; exact Hs]. destruct Hd as (d1 & -> & H1). apply dec_space_cut in H1; [|exact FE|exact Hr]. destruct H1 as (dw & dr & -> & H1 & H2). destruct (IH dr H2) as (ds & D1 & D2). exists (dw :: ds). split; [constructor; assumption|]. constructor; [apply isp_map; exact Hs| |exact D2].
      intros x r E. subst dr. destruct rest as [|c rest]; [inversion H2 as [| |a v t d0 Hi _ E]; subst; destruct (FE _ _ Hi) as (f1 & mid & f2 & -> & _); discriminate|].
      specialize (Hr c rest eq_refl). change (c :: rest) with ([c] ++ rest) in H2. apply dec_plain_inv in H2; [|exact FE|apply space_plain; intros c' [<-|[]]; exact Hr]. destruct H2 as (d2 & E & _). injection E as -> _. exact Hr.
  Qed.
  Lemma dec_words' env t d : framed_env rs env -> dec env t d -> exists ds, Forall2 (dec env) (words t) ds /\ wseq U d ds.
  Proof. intros FE H. destruct (words_of_total U t) as (ws & W). rewrite (words_of_fun U t ws W). eapply dec_words; eauto. Qed.
  Lemma plain32 : plainc 32%N.
  Proof. intros H. pose proof (fr_space 32%N) as K. rewrite (space32 U OK) in K. discriminate K. apply in_app_iff. left. exact H. Qed.
  Lemma dec_join env ws ds : Forall2 (dec env) ws ds -> dec env (join [32%N] ws) (djoin ds).
  Proof.
    induction 1 as [|w d ws ds H F IH]; [constructor|]. destruct F as [|w2 d2 ws ds H2 F]; [exact H|]. change (join [32%N] (w :: w2 :: ws)) with (w ++ [32%N] ++ join [32%N] (w2 :: ws)). rewrite djoin_cons by discriminate. apply dec_app; [exact H|]. apply dec_app; [|exact IH]. apply (dec_plain rs env [32%N]). constructor; [exact plain32|constructor].
  Qed.
  Lemma wseq_single p x q : forallb (isp U) p = true -> forallb (isp U) q = true -> wseq U (p ++ x ++ q) [x].
  Proof. intros Hp Hq. constructor; [exact Hp| |constructor; exact Hq]. intros y r ->. cbn in Hq. apply andb_true_iff in Hq. tauto. Qed.

  (** *** the invariant *)
  Section Inv.
    Context (ms : list str) (Q : Prop) (n0 : str).
    Definition inv (d : list dch) : Prop := good U ms d /\ (Q -> nsp U d = n0).
    Lemma inv_rewr d d' : rewr (rq U Q) d d' -> inv d -> inv d'.
    Proof.
      intros H [G E]. split; [eapply rewr_good; [|exact G]; eapply rewr_impl; [|exact H]; intros w w' [K _]; exact K|]. intros q. rewrite <- (E q). apply rewr_nsp. eapply rewr_impl; [|exact H]. intros w w' [[K _] K2]. split; auto.
    Qed.
    Lemma inv_wseq d ds : wseq U d ds -> inv d -> inv (djoin ds).
    Proof. intros H [G E]. split; [eapply wseq_good; eauto|]. intros q. rewrite (proj1 (nsp_djoin U OK ds)), <- (proj1 (wseq_content U d ds H)). auto. Qed.
    Lemma keep_rule sv env ru s d : framed_env rs env -> incl (env_of sv) env -> keep_ok sv ru = true -> dec env s d -> exists d', dec env (apply_rule U s ru) d' /\ rewr (rq U Q) d d'.
    Proof.
      intros FE HI H Hd. unfold keep_ok in H. repeat rewrite andb_true_iff in H. destruct H as [[H1 H2] H3]. eapply (rule_same U OK rs RS sv env FE HI ru (undo (r_rep ru)) H1); eauto. apply (must_rare U OK rs RS). exact H3.
    Qed.
    Lemma keep_rules sv env rules : framed_env rs env -> incl (env_of sv) env -> forallb (keep_ok sv) rules = true -> forall s d, dec env s d -> inv d -> exists d', dec env (fold_left (apply_rule U) rules s) d' /\ inv d'.
    Proof.
      intros FE HI. induction rules as [|ru rules IH]; intros H s d Hd Hi; [eauto|]. cbn [forallb] in H. apply andb_true_iff in H. destruct H as [H1 H2]. destruct (keep_rule sv env ru s d FE HI H1 Hd) as (d1 & D1 & R1). cbn [fold_left]. apply (IH H2 _ d1 D1). eapply inv_rewr; eauto.
    Qed.
    (** rules applied to one word, without the invariant *)
    Lemma keep_rules_word sv env rules : framed_env rs env -> incl (env_of sv) env -> forallb (keep_ok sv) rules = true -> forall s d, dec env s d -> exists ds, dec env (fold_left (apply_rule U) rules s) (last (d :: ds) []) /\
      (forall a b, inv (a ++ d ++ b) -> inv (a ++ last (d :: ds) [] ++ b)).
    Proof.
      intros FE HI. induction rules as [|ru rules IH]; intros H s d Hd; [exists []; split; [exact Hd|auto]|]. cbn [forallb] in H. apply andb_true_iff in H. destruct H as [H1 H2]. destruct (keep_rule sv env ru s d FE HI H1 Hd) as (d1 & D1 & R1). cbn [fold_left]. destruct (IH H2 _ d1 D1) as (ds & D2 & K). exists (d1 :: ds). split; [exact D2|]. intros a b Hi. change (last (d :: d1 :: ds) []) with (last (d1 :: ds) []). apply K. eapply inv_rewr; [|exact Hi]. apply rewr_app. apply rewr_trans_app; [exact R1|constructor].
    Qed.

    (** *** the dots *)
    Lemma wseq_app a b as_ bs : wseq U a as_ -> wseq U b bs -> (forall x r, b = x :: r -> isp U x = true) -> wseq U (a ++ b) (as_ ++ bs).
    Proof.
      intros H Hb Hs. induction H as [s H|s w rest ws H1 H2 H IH]; cbn [app].
      - inversion Hb as [s2 H2|s2 w rest ws H2 H3 H4]; subst.
        + constructor. rewrite forallb_app, H, H2. reflexivity.
        + rewrite app_assoc. constructor; [rewrite forallb_app, H, H2; reflexivity|exact H3|exact H4].
      - rewrite <- !app_assoc. constructor; [exact H1| |exact IH]. intros x r E. destruct rest as [|y rest]; [cbn in E; exact (Hs x r E)|]. injection E as -> _. exact (H2 x rest eq_refl).
    Qed.
    Definition dots_ok : bool := forallb (keep_ok []) re_token_split_dot.
    Lemma dots_ok_true : dots_ok = true.
    Proof. vm_compute. reflexivity. Qed.
    Lemma split_dots_dec env w d : framed_env rs env -> dec env w d -> exists d' ds, Forall2 (dec env) (split_dots U w) ds /\ wseq U d' ds /\ (forall a b, inv (a ++ d ++ b) -> inv (a ++ d' ++ b)).
    Proof.
      intros FE Hd. unfold split_dots. destruct (existsb _ _).
      - exists d, [d]. split; [constructor; [exact Hd|constructor]|]. split; [|auto]. rewrite <- (app_nil_r d) at 1. apply (wseq_single [] d []); reflexivity.
      - destruct (keep_rules_word [] env re_token_split_dot FE ltac:(intros x []) dots_ok_true w d Hd) as (l & D & K). destruct (dec_words' env _ _ FE D) as (ds & F & W). exists (last (d :: l) []), ds. auto.
    Qed.
    Lemma join_dots env ws ds : framed_env rs env -> Forall2 (dec env) ws ds -> forall a, inv (a ++ djoin ds) ->
      exists d' ds', Forall2 (dec env) (flat_map (split_dots U) ws) ds' /\ wseq U d' ds' /\ inv (a ++ d').
    Proof.
      intros FE F. induction F as [|w d ws ds H F IH]; intros a Hi.
      - exists [], []. split; [constructor|]. split; [constructor; reflexivity|exact Hi].
      - destruct (split_dots_dec env w d FE H) as (d1 & ds1 & F1 & W1 & K). destruct F as [|w2 d2 ws ds H2 F].
        + exists d1, ds1. cbn [flat_map]. rewrite app_nil_r. split; [exact F1|]. split; [exact W1|]. rewrite <- (app_nil_r d1). apply K. rewrite app_nil_r. exact Hi.
        + rewrite djoin_cons in Hi by discriminate. apply K in Hi. rewrite app_assoc in Hi. rewrite app_assoc in Hi. destruct (IH _ Hi) as (d3 & ds3 & F3 & W3 & I3). exists (d1 ++ [C 32%N] ++ d3), (ds1 ++ ds3).
          split; [change (flat_map (split_dots U) (w :: w2 :: ws)) with (split_dots U w ++ flat_map (split_dots U) (w2 :: ws)); apply Forall2_app; assumption|]. split; [|rewrite <- !app_assoc in I3; exact I3].
          apply wseq_app; [exact W1| |intros x r E; injection E as <- _; cbn; apply space32; exact OK].
          change (ds3) with ([] ++ ds3). inversion W3 as [s Hs|s w' rest ws' Hs Hr Hw]; subst.
          * constructor. cbn. rewrite (space32 U OK). exact Hs.
          * apply (wseq_next U ([C 32%N] ++ s) w' rest ws'); [cbn; rewrite (space32 U OK); exact Hs|exact Hr|exact Hw].
    Qed.
    Lemma stage_dots env s d : framed_env rs env -> dec env s d -> inv d -> exists d', dec env (join [32%N] (flat_map (split_dots U) (words s))) d' /\ inv d'.
    Proof.
      intros FE Hd Hi. destruct (dec_words' env s d FE Hd) as (ds & F & W). pose proof (inv_wseq _ _ W Hi) as I1. destruct (join_dots env _ _ FE F [] I1) as (d' & ds' & F' & W' & I'). exists (djoin ds'). split; [apply dec_join; exact F'|eapply inv_wseq; eauto].
    Qed.
    Lemma stage_words env s d : framed_env rs env -> dec env s d -> inv d -> exists d', dec env (join [32%N] (words s)) d' /\ inv d'.
    Proof. intros FE Hd Hi. destruct (dec_words' env s d FE Hd) as (ds & F & W). exists (djoin ds). split; [apply dec_join; exact F|eapply inv_wseq; eauto]. Qed.
  End Inv.
End Stages.
